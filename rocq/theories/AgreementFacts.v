(** * AgreementFacts *)
From Coq Require Import Lia.
From Verif Require Import PyBase Relations Restrictions Logic Data Words Transformators PyBaseFacts SpecProps PropsFacts SpecSlots SlotFacts LookupFacts WordFacts SpecAgreement.

Lemma value_pget p g v : props_wf p -> (value p g v <-> pget p g = Ok (Some v)).
Proof.
  intros Hp. rewrite pget_spec. unfold value. split.
  - intros H. inversion H as [|? ? ? ? Hh|? ? ? ? Hn Hd]; subst.
    + apply holds_dget in Hh; [|exact Hp]. rewrite Hh. reflexivity.
    + inversion Hd as [? E| |]; subst. apply holds_none in Hn. rewrite Hn. reflexivity.
  - destruct (dget rel_eqb g p) as [w|] eqn:E; intros [= H].
    + subst. apply vf_here. apply holds_dget; assumption.
    + apply vf_next; [apply holds_none, E|]. rewrite <- H. constructor.
Qed.
Lemma wf_cloneP p l : props_wf p -> props_wf (cloneP p l).
Proof.
  intros Hp. apply wf_Properties. intros d [[= <-]|H]; [exact Hp|]. apply in_map_iff in H as (? & [=] & _).
Qed.
Lemma dget_cloneP p l g : props_wf p -> dget rel_eqb g (cloneP p l) =
  match args_get g (map AProp l) with Some v => Some v | None => dget rel_eqb g p end.
Proof.
  intros Hp. unfold cloneP, clone. rewrite dget_Properties; [cbn [args_get arg_get]; reflexivity|].
  intros d [[= <-]|H]; [exact Hp|]. apply in_map_iff in H as (? & [=] & _).
Qed.
Lemma pget_cloneP p l g : props_wf p -> pget (cloneP p l) g =
  match args_get g (map AProp l) with Some v => Ok (Some v) | None => pget p g end.
Proof. intros Hp. rewrite !pget_spec, dget_cloneP by exact Hp. destruct (args_get g (map AProp l)); reflexivity. Qed.
Lemma holds_cloneP p l g v : props_wf p -> args_get g (map AProp l) = None -> (holds (cloneP p l) g v <-> holds p g v).
Proof. intros Hp H. rewrite <- !holds_dget by (try apply wf_cloneP; exact Hp). rewrite dget_cloneP, H by exact Hp. reflexivity. Qed.

(** the value of a group, one of its records *)
Lemma pget_some p g : props_wf p -> g <> R_WORD_TYPE -> exists v, pget p g = Ok (Some v) /\ In v (records g).
Proof.
  intros Hp Hg. destruct (values_exist p [g]) as [c Hc]; [intros g' [<-|[]]; exact Hg|]. inversion Hc as [|? v ? ? Hv _]; subst. exists v. split; [exact Hv|].
  apply (pget_rel p g v Hp Hv).
Qed.

Lemma noun_integer_row p m i c a : props_wf p -> pget p R_DEPENDENCY_MODE = Ok (Some m) -> pget p R_INTEGER_FORM = Ok (Some i) ->
  pget p R_CASE = Ok (Some c) -> pget p R_ANIMALITY = Ok (Some a) ->
  exists nf n c' l, noun_row m i c a nf n c' /\ noun_integer p = Ok (cloneP p l) /\
    (l = [nf; n] /\ c' = c \/ l = [nf; n; c'] /\ rel_of c' = R_CASE) /\ rel_of nf = R_NOUN_FORM /\ rel_of n = R_NUMBER.
Proof.
  intros Hp Hm Hi Hc Ha. assert (Rm := pget_rel _ _ _ Hp Hm). assert (Ri := pget_rel _ _ _ Hp Hi). assert (Rc := pget_rel _ _ _ Hp Hc). assert (Ra := pget_rel _ _ _ Hp Ha).
  unfold noun_integer. rewrite Hi, Hm, Hc, Ha. cbn [bind]. clear Hm Hi Hc Ha Hp. set (f := cloneP p). clearbody f.
  cbn [records] in Rm, Ri, Rc, Ra.
  destruct Rm as [<-|[<-|[]]]; destruct Ri as [<-|[<-|[<-|[<-|[<-|[]]]]]];
  (destruct Rc as [<-|[<-|[<-|[<-|[<-|[<-|[]]]]]]]); destruct Ra as [<-|[<-|[]]];
  (do 4 eexists; split; cycle 1; [split; [cbv; reflexivity|split; [first [left; split; reflexivity|right; split; reflexivity]|split; reflexivity]]|];
   solve [constructor; unfold direct_case; intuition discriminate]).
Qed.
Lemma adjective_integer_row p m i c g : props_wf p -> pget p R_DEPENDENCY_MODE = Ok (Some m) -> pget p R_INTEGER_FORM = Ok (Some i) ->
  pget p R_CASE = Ok (Some c) -> pget p R_GENDER = Ok (Some g) ->
  exists n c' l, adjective_row m i c g n c' /\ adjective_integer p = Ok (cloneP p l) /\
    (l = [n] /\ c' = c \/ l = [n; c'] /\ rel_of c' = R_CASE) /\ rel_of n = R_NUMBER.
Proof.
  intros Hp Hm Hi Hc Hg. assert (Rm := pget_rel _ _ _ Hp Hm). assert (Ri := pget_rel _ _ _ Hp Hi). assert (Rc := pget_rel _ _ _ Hp Hc). assert (Rg := pget_rel _ _ _ Hp Hg).
  unfold adjective_integer. rewrite Hi, Hm, Hc, Hg. cbn [bind]. clear Hm Hi Hc Hg Hp. set (f := cloneP p). clearbody f.
  cbn [records] in Rm, Ri, Rc, Rg.
  destruct Rm as [<-|[<-|[]]]; destruct Ri as [<-|[<-|[<-|[<-|[<-|[]]]]]];
  (destruct Rc as [<-|[<-|[<-|[<-|[<-|[<-|[]]]]]]]); destruct Rg as [<-|[<-|[<-|[]]]];
  (do 3 eexists; split; cycle 1; [split; [cbv; reflexivity|split; [first [left; split; reflexivity|right; split; reflexivity]|reflexivity]]|];
   solve [constructor; unfold direct_case; intuition discriminate]).
Qed.
