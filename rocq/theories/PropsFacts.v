(** * PropsFacts: proofs about Properties (utg/words.py:11-77) *)
From Coq Require Import Lia Permutation.
From Verif Require Import PyBase Relations Restrictions Logic Data Words PyBaseFacts SpecProps.

(** well-formed dicts: what [is_properties] amounts to *)
Definition props_wf (p : props) : Prop :=
  NoDup (dkeys p) /\ forall g v, In (g, v) p -> rel_of v = g.

Lemma wf_nil : props_wf [].
Proof. split; [constructor|intros g v []]. Qed.
Lemma wf_dset p v : props_wf p -> props_wf (dset rel_eqb (rel_of v) v p).
Proof.
  intros [H1 H2]. split; [apply NoDup_dset; [exact rel_eqb_ok|exact H1]|].
  intros g w H. apply in_dset in H; [|exact rel_eqb_ok]. destruct H as [[-> ->]|H]; [reflexivity|apply H2, H].
Qed.
Lemma wf_dupdate p q : props_wf p -> props_wf q -> props_wf (dupdate rel_eqb p q).
Proof.
  intros Hp [_ Hq]. unfold dupdate. revert p Hp Hq. induction q as [|[g v] q IH]; intros p Hp Hq; simpl; [exact Hp|].
  apply IH; [|intros g' v' H; apply Hq; right; exact H].
  rewrite <- (Hq g v (or_introl eq_refl)). apply wf_dset, Hp.
Qed.
Definition wf_args (args : list parg) : Prop := forall d, In (AProps d) args -> props_wf d.
Lemma wf_update p args : props_wf p -> wf_args args -> props_wf (update p args).
Proof.
  unfold update. revert p. induction args as [|a args IH]; intros p Hp Ha; simpl; [exact Hp|].
  apply IH; [|intros d H; apply Ha; right; exact H].
  destruct a as [|v|d]; simpl; [exact Hp|apply wf_dset, Hp|]. apply wf_dupdate; [exact Hp|apply Ha; left; reflexivity].
Qed.
Lemma wf_Properties args : wf_args args -> props_wf (Properties args).
Proof. apply wf_update, wf_nil. Qed.
Lemma is_properties_wf p : is_properties p -> props_wf p.
Proof. induction 1 as [args _ IH]. apply wf_Properties. exact IH. Qed.
Lemma good_args_wf args : good_args args -> wf_args args.
Proof. intros H d Hd. apply is_properties_wf, H, Hd. Qed.

Lemma Properties_of_records p q :
  props_wf (p ++ q) -> update p (map AProp (map snd q)) = p ++ q.
Proof.
  unfold update. revert p. induction q as [|[g v] q IH]; intros p [H1 H2]; simpl; [rewrite app_nil_r; reflexivity|].
  assert (Hg : rel_of v = g) by (apply H2; apply in_app_iff; right; left; reflexivity).
  rewrite Hg. rewrite (dset_new _ rel_eqb_ok).
  2: { rewrite dkeys_app in H1. simpl in H1. apply NoDup_remove_2 in H1. intros H. apply H1. apply in_app_iff. left; exact H. }
  rewrite IH; rewrite <- app_assoc; simpl; [reflexivity|]. split; assumption.
Qed.
Lemma wf_is_properties p : props_wf p -> is_properties p.
Proof.
  intros H. assert (E := Properties_of_records [] p H). simpl in E. rewrite <- E.
  apply (new_properties (map AProp (map snd p))).
  intros d Hd. apply in_map_iff in Hd as (? & [=] & _).
Qed.
Lemma is_properties_iff p : is_properties p <-> props_wf p.
Proof. split; [apply is_properties_wf|apply wf_is_properties]. Qed.
Lemma wf_args_good args : wf_args args -> good_args args.
Proof. intros H d Hd. apply wf_is_properties, H, Hd. Qed.
Lemma Properties_ok args : good_args args -> is_properties (Properties args).
Proof. intros H. constructor. exact H. Qed.

(** ** lookup *)
Lemma holds_dget p g v : props_wf p -> (dget rel_eqb g p = Some v <-> holds p g v).
Proof. intros [H _]. apply (dget_Some_iff _ rel_eqb_ok), H. Qed.
Lemma holds_none p g : dget rel_eqb g p = None <-> forall v, ~ holds p g v.
Proof.
  rewrite (dget_None _ rel_eqb_ok). unfold holds, dkeys. rewrite in_map_iff. split.
  - intros H v Hv. apply H. exists (g, v). auto.
  - intros H ([g' v] & E & Hin). simpl in E. subst. apply (H v), Hin.
Qed.
Lemma holds_rel p g v : props_wf p -> holds p g v -> rel_of v = g.
Proof. intros [_ H]. apply H. Qed.
Lemma holds_fun p g v v' : props_wf p -> holds p g v -> holds p g v' -> v = v'.
Proof. intros H H1 H2. apply (holds_dget p g _ H) in H1, H2. congruence. Qed.

(** lookup of one update *)
Definition arg_get (g : relation) (a : parg) : option prop :=
  match a with
  | ANone => None
  | AProp p => if rel_eqb (rel_of p) g then Some p else None
  | AProps d => dget rel_eqb g d
  end.
Lemma arg_get_mentions g a v : wf_args [a] -> (arg_get g a = Some v <-> mentions a g v).
Proof.
  intros Ha. destruct a as [|p|d]; simpl.
  - split; [discriminate|intros []].
  - destruct (rel_eqb (rel_of p) g) eqn:E.
    + apply rel_eqb_ok in E. split; [intros [= <-]; auto|intros [_ ->]; reflexivity].
    + apply (eqb_ok_neq _ rel_eqb_ok) in E. split; [discriminate|]. intros [H _]. contradiction.
  - apply holds_dget, Ha. left; reflexivity.
Qed.
Lemma arg_get_none g a : wf_args [a] -> (arg_get g a = None <-> forall v, ~ mentions a g v).
Proof.
  intros Ha. split.
  - intros H v Hv. apply arg_get_mentions in Hv; [congruence|exact Ha].
  - intros H. destruct (arg_get g a) eqn:E; [|reflexivity]. apply arg_get_mentions in E; [|exact Ha]. exfalso. apply (H p), E.
Qed.
Lemma dget_update1 p a g : wf_args [a] ->
  dget rel_eqb g (update1 p a) = match arg_get g a with Some v => Some v | None => dget rel_eqb g p end.
Proof.
  intros Ha. destruct a as [|v|d]; simpl; [reflexivity| |].
  - rewrite (dget_dset _ rel_eqb_ok). destruct (rel_eqb (rel_of v) g); reflexivity.
  - apply (dget_dupdate _ rel_eqb_ok). apply (Ha d). left; reflexivity.
Qed.
Lemma update_app p l1 l2 : update p (l1 ++ l2) = update (update p l1) l2.
Proof. unfold update. apply fold_left_app. Qed.
Fixpoint args_get (g : relation) (args : list parg) : option prop :=
  match args with
  | [] => None
  | a :: args' => match args_get g args' with Some v => Some v | None => arg_get g a end
  end.
Lemma dget_update p args g : wf_args args ->
  dget rel_eqb g (update p args) = match args_get g args with Some v => Some v | None => dget rel_eqb g p end.
Proof.
  unfold update. revert p. induction args as [|a args IH]; intros p Ha; simpl; [reflexivity|].
  rewrite IH by (intros d H; apply Ha; right; exact H).
  destruct (args_get g args); [reflexivity|]. apply dget_update1. intros d [->|[]]. apply Ha. left; reflexivity.
Qed.
Lemma dget_Properties args g : wf_args args -> dget rel_eqb g (Properties args) = args_get g args.
Proof. intros H. unfold Properties. rewrite dget_update by exact H. destruct (args_get g args); reflexivity. Qed.
Lemma args_get_app g l1 l2 :
  args_get g (l1 ++ l2) = match args_get g l2 with Some v => Some v | None => args_get g l1 end.
Proof.
  induction l1 as [|a l1 IH]; simpl; [destruct (args_get g l2); reflexivity|].
  rewrite IH. destruct (args_get g l2); [reflexivity|]. reflexivity.
Qed.
Lemma args_get_none g args : wf_args args -> (args_get g args = None <-> forall a v, In a args -> ~ mentions a g v).
Proof.
  induction args as [|a args IH]; intros Ha; simpl; [split; [intros _ ? ? []|reflexivity]|].
  assert (Ha1 : wf_args [a]) by (intros d [->|[]]; apply Ha; left; reflexivity).
  assert (Ha2 : wf_args args) by (intros d H; apply Ha; right; exact H).
  specialize (IH Ha2). destruct (args_get g args) as [v|] eqn:E.
  - split; [discriminate|]. intros H. exfalso.
    assert (Hn : @None prop = Some v) by (symmetry; apply IH; intros a' v' Hin; apply H; right; exact Hin). discriminate Hn.
  - rewrite (arg_get_none g a Ha1). split.
    + intros H a' v [<-|Hin]; [apply H|]. apply IH; [reflexivity|exact Hin].
    + intros H v. apply H. left; reflexivity.
Qed.
Lemma args_get_some g args v : wf_args args ->
  (args_get g args = Some v <->
   exists l1 a l2, args = l1 ++ a :: l2 /\ mentions a g v /\ forall b w, In b l2 -> ~ mentions b g w).
Proof.
  intros Ha. split.
  - induction args as [|a args IH]; simpl; [discriminate|].
    assert (Ha1 : wf_args [a]) by (intros d [->|[]]; apply Ha; left; reflexivity).
    assert (Ha2 : wf_args args) by (intros d H; apply Ha; right; exact H).
    destruct (args_get g args) as [w|] eqn:E; intros H.
    + destruct (IH Ha2 H) as (l1 & b & l2 & -> & H1 & H2). exists (a :: l1), b, l2. auto.
    + exists [], a, args. split; [reflexivity|]. split; [apply arg_get_mentions; assumption|].
      intros b w Hb. apply (proj1 (args_get_none g args Ha2)); assumption.
  - intros (l1 & a & l2 & -> & H1 & H2). rewrite args_get_app. simpl.
    assert (Ha1 : wf_args [a]) by (intros d [->|[]]; apply Ha; apply in_app_iff; right; left; reflexivity).
    assert (Ha2 : wf_args l2) by (intros d H; apply Ha; apply in_app_iff; right; right; exact H).
    rewrite (proj2 (args_get_none g l2 Ha2) H2), (proj2 (arg_get_mentions g a v Ha1) H1). reflexivity.
Qed.

(** defaults *)
Lemma DEFAULT_PROPERTIES_get g : dget rel_eqb g DEFAULT_PROPERTIES = Some (default_of g).
Proof. destruct g; vm_compute; reflexivity. Qed.
Lemma pget_spec p g : pget p g = Ok (match dget rel_eqb g p with Some v => Some v | None => default_of g end).
Proof. unfold pget. rewrite DEFAULT_PROPERTIES_get. destruct (dget rel_eqb g p); reflexivity. Qed.
Lemma default_of_rel g v : default_of g = Some v -> rel_of v = g.
Proof. destruct g; simpl; intros [= <-]; reflexivity. Qed.
Lemma default_of_some g : g <> R_WORD_TYPE -> exists v, default_of g = Some v.
Proof. destruct g; simpl; intros H; try (eexists; reflexivity). exfalso. apply H. reflexivity. Qed.

Lemma is_specified_iff p g : is_specified p g = true <-> exists v, holds p g v.
Proof.
  unfold is_specified, dmem. destruct (dget rel_eqb g p) eqn:E.
  - split; [|reflexivity]. intros _. exists p0. apply (dget_In _ rel_eqb_ok), E.
  - split; [discriminate|]. intros [v Hv]. exfalso. apply (proj1 (holds_none p g) E v Hv).
Qed.

(** ** equality *)
Lemma same_props_dget p q : props_wf p -> props_wf q ->
  (same_props p q <-> forall g, dget rel_eqb g p = dget rel_eqb g q).
Proof.
  intros Hp Hq. split.
  - intros H g. destruct (dget rel_eqb g q) eqn:E.
    + apply (holds_dget q g _ Hq) in E. apply H in E. apply (holds_dget p g _ Hp) in E. exact E.
    + apply holds_none. intros v Hv. apply H in Hv. apply (holds_dget q g _ Hq) in Hv. congruence.
  - intros H g v. rewrite <- (holds_dget p g v Hp), <- (holds_dget q g v Hq), H. reflexivity.
Qed.
Lemma props_eqb_dget p q : props_wf p -> props_wf q ->
  (props_eqb p q = true <-> forall g, dget rel_eqb g p = dget rel_eqb g q).
Proof.
  intros Hp Hq. unfold props_eqb. rewrite andb_true_iff, Nat.eqb_eq, forallb_forall.
  assert (G : forall p q, props_wf p -> props_wf q -> length p = length q ->
    (forall g v, dget rel_eqb g p = Some v -> dget rel_eqb g q = Some v) -> forall g, dget rel_eqb g p = dget rel_eqb g q).
  { clear p q Hp Hq. intros p q Hp Hq Hl Hincl g.
    destruct (dget rel_eqb g p) eqn:E; [symmetry; apply Hincl, E|].
    destruct (dget rel_eqb g q) eqn:E'; [|reflexivity]. exfalso.
    apply (holds_dget q g _ Hq) in E'.
    assert (Hin : incl (dkeys p) (dkeys q)).
    { intros g' Hg'. destruct (dget_map_fst_in _ rel_eqb_ok p g' Hg') as [v Hv]. apply Hincl in Hv.
      apply (dget_In _ rel_eqb_ok) in Hv. apply in_map_iff. exists (g', v). auto. }
    assert (Hrev : incl (dkeys q) (dkeys p)).
    { apply NoDup_length_incl; [apply Hp| |exact Hin]. unfold dkeys. rewrite !map_length. lia. }
    apply (dget_None _ rel_eqb_ok) in E. apply E, Hrev. apply in_map_iff. exists (g, p0). auto. }
  split.
  - intros [Hl H]. apply G; try assumption. intros g v Hv. assert (Hin := Hv). apply (dget_In _ rel_eqb_ok) in Hin.
    specialize (H _ Hin). simpl in H. destruct (dget rel_eqb g q); [|discriminate]. apply prop_eqb_ok in H. congruence.
  - intros H. split.
    + assert (Hk : forall g, In g (dkeys p) <-> In g (dkeys q)).
      { intros g. rewrite <- (dmem_iff _ rel_eqb_ok p g), <- (dmem_iff _ rel_eqb_ok q g). unfold dmem. rewrite H. reflexivity. }
      rewrite <- (map_length fst p), <- (map_length fst q). apply Nat.le_antisymm; apply NoDup_incl_length;
        try apply Hp; try apply Hq; intros g Hg; apply Hk, Hg.
    + intros [g v] Hin. simpl. rewrite <- H. apply (holds_dget p g v Hp) in Hin. rewrite Hin. apply (eqb_ok_refl _ prop_eqb_ok).
Qed.
Lemma props_eqb_same p q : is_properties p -> is_properties q -> (props_eqb p q = true <-> same_props p q).
Proof.
  intros Hp Hq. apply is_properties_wf in Hp, Hq. rewrite props_eqb_dget, same_props_dget by assumption. reflexivity.
Qed.
Lemma same_props_permutation p q : props_wf p -> props_wf q -> same_props p q -> Permutation p q.
Proof.
  intros [Hp _] [Hq _] H. apply NoDup_Permutation.
  - unfold dkeys in Hp. apply (NoDup_map_inv fst), Hp.
  - unfold dkeys in Hq. apply (NoDup_map_inv fst), Hq.
  - intros [g v]. apply H.
Qed.
Lemma props_eqb_refl p : is_properties p -> props_eqb p p = true.
Proof. intros H. apply props_eqb_same; try assumption. intros g v. reflexivity. Qed.
Lemma Permutation_filter_length {A} (f : A -> bool) l l' : Permutation l l' -> length (filter f l) = length (filter f l').
Proof.
  induction 1; simpl; repeat match goal with |- context [f ?x] => destruct (f x) end; simpl; congruence.
Qed.
Lemma same_props_manhattan p q : is_properties p -> is_properties q -> same_props p q ->
  manhattan_distance p = manhattan_distance q.
Proof.
  intros Hp Hq H. unfold manhattan_distance. apply Permutation_filter_length.
  apply same_props_permutation; [apply is_properties_wf, Hp|apply is_properties_wf, Hq|exact H].
Qed.

(** value of a combination *)
Lemma value_from_pget ps g o : Forall props_wf ps -> (value_from ps g o <->
  o = match args_get g (rev (map AProps ps)) with Some v => Some v | None => default_of g end).
Proof.
  induction ps as [|p ps IH]; intros Hwf; simpl.
  - split; [intros H; inversion H; reflexivity|intros ->; constructor].
  - inversion Hwf as [|? ? Hp Hps]; subst. rewrite args_get_app. simpl.
    destruct (dget rel_eqb g p) eqn:E.
    + split; intros H.
      * inversion H as [|? ? ? v Hv|? ? ? ? Hn]; subst; [apply (holds_dget p g v Hp) in Hv; congruence|].
        exfalso. apply (Hn p0). apply holds_dget; assumption.
      * subst. apply vf_here. apply holds_dget; assumption.
    + assert (Hn : forall v, ~ holds p g v) by (apply holds_none; exact E). split; intros H.
      * inversion H as [|? ? ? v Hv|? ? ? ? _ Hv]; subst; [exfalso; apply (Hn v Hv)|apply IH in Hv; assumption].
      * apply vf_next; [exact Hn|]. apply IH; assumption.
Qed.
Lemma value_from_exists ps g : Forall props_wf ps -> exists o, value_from ps g o.
Proof. intros H. eexists. apply value_from_pget; [exact H|reflexivity]. Qed.
Lemma value_from_fun ps g o o' : Forall props_wf ps -> value_from ps g o -> value_from ps g o' -> o = o'.
Proof. intros H H1 H2. apply value_from_pget in H1, H2; try assumption. congruence. Qed.
(** lookup in an object built from Properties objects, the last first *)
Lemma value_from_Properties ps g : Forall props_wf ps ->
  forall o, value_from ps g o <-> pget (Properties (rev (map AProps ps))) g = Ok o.
Proof.
  intros H o. rewrite value_from_pget by exact H. rewrite pget_spec, dget_Properties.
  - split; [intros ->; reflexivity|congruence].
  - intros d Hd. apply in_rev in Hd. apply in_map_iff in Hd as (d' & [= <-] & Hd). rewrite Forall_forall in H. apply H, Hd.
Qed.
