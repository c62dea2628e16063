(** * PropIdentifiers: C75: the identifiers of properties are those of the README *)
From Coq Require Import Lia.
From Verif Require Import PyBase Relations Restrictions Logic Data Words Templates SpecProps SpecTemplates SpecIdentifiers PyBaseFacts PropsFacts SynFacts TemplateFacts PropSyntax.

Definition table : list (str * prop) := flat_map snd documented.
Lemma means_in x p : means x p <-> In (x, p) table.
Proof.
  unfold means, table. rewrite in_flat_map. split.
  - intros (g & l & H1 & H2). exists (g, l). auto.
  - intros ([g l] & H1 & H2). exists g, l. auto.
Qed.
(** an identifier means exactly one property, a property has exactly one identifier, and its group is the one under whose heading it is described *)
Theorem C75_table : forall x p, means x p <-> x = verbose_id p.
Proof.
  intros x p. rewrite means_in. split.
  - intros H. assert (G : forallb (fun kv => str_eqb (fst kv) (verbose_id (snd kv))) table = true) by (vm_compute; reflexivity).
    rewrite forallb_forall in G. apply G in H. apply str_eqb_ok in H. exact H.
  - intros ->. assert (G : existsb (fun kv => str_eqb (fst kv) (verbose_id p) && prop_eqb (snd kv) p) table = true).
    { apply (in_all_prop (fun p => existsb (fun kv => str_eqb (fst kv) (verbose_id p) && prop_eqb (snd kv) p) table)). vm_compute. reflexivity. }
    apply existsb_exists in G as ([y q] & Hin & E). cbn [fst snd] in E. apply andb_true_iff in E as [E1 E2]. apply str_eqb_ok in E1. apply prop_eqb_ok in E2. subst. exact Hin.
Qed.
Theorem C75_groups : forall g l x p, In (g, l) documented -> In (x, p) l -> rel_of p = g.
Proof.
  intros g l x p H1 H2. assert (G : forallb (fun e => forallb (fun kv => rel_eqb (rel_of (snd kv)) (fst e)) (snd e)) documented = true) by (vm_compute; reflexivity).
  rewrite forallb_forall in G. apply G in H1. cbn [fst snd] in H1. rewrite forallb_forall in H1. apply H1 in H2. apply rel_eqb_ok in H2. exact H2.
Qed.
(** what is used when nothing is specified is listed first under its heading *)
Theorem C75_first_is_default : forall p g l, is_properties p -> In (g, l) documented -> g <> R_WORD_TYPE -> (forall v, ~ holds p g v) ->
  exists x v rest, l = (x, v) :: rest /\ pget p g = Ok (Some v).
Proof.
  intros p g l Hp H1 Hg Hn. rewrite pget_spec. destruct (dget rel_eqb g p) as [v|] eqn:E; [apply holds_dget in E; [destruct (Hn v E)|apply is_properties_wf, Hp]|].
  assert (G : forallb (fun e => match snd e with (_, v) :: _ => rel_eqb (fst e) R_WORD_TYPE || opt_eqb prop_eqb (default_of (fst e)) (Some v) | [] => false end) documented = true) by (vm_compute; reflexivity).
  rewrite forallb_forall in G. apply G in H1. cbn [fst snd] in H1. destruct l as [|[x v] rest]; [discriminate|]. exists x, v, rest. split; [reflexivity|].
  apply orb_true_iff in H1 as [H1|H1]; [apply rel_eqb_ok in H1; contradiction|]. apply (opt_eqb_ok _ prop_eqb_ok) in H1. rewrite H1. reflexivity.
Qed.

(** ** lists *)
Lemma records_hold_iff vs g v : holds (Properties (map AProp vs)) g v <-> exists before after, vs = before ++ v :: after /\ rel_of v = g /\ forall w, In w after -> rel_of w <> g.
Proof.
  assert (W : wf_args (map AProp vs)) by (intros q Hq; apply in_map_iff in Hq as (x & E & _); discriminate).
  rewrite <- holds_dget by (apply wf_Properties, W). rewrite dget_Properties by exact W. clear W. induction vs as [|x vs IH].
  - split; [discriminate|]. intros (b & a & E & _). destruct b; discriminate.
  - cbn [map args_get]. destruct (args_get g (map AProp vs)) as [y|] eqn:Ey.
    + assert (N : exists w, In w vs /\ rel_of w = g).
      { assert (K : forall us z, args_get g (map AProp us) = Some z -> exists w, In w us /\ rel_of w = g).
        { clear. induction us as [|s us IH]; intros z H; [discriminate|]. cbn [map args_get] in H. destruct (args_get g (map AProp us)) as [y|].
          - destruct (IH y eq_refl) as (w & Hw & E). exists w. split; [right; exact Hw|exact E].
          - cbn [arg_get] in H. destruct (rel_eqb (rel_of s) g) eqn:E; [|discriminate]. apply rel_eqb_ok in E. exists s. split; [left; reflexivity|exact E]. }
        exact (K vs y Ey). }
      rewrite IH. split.
      * intros (b & a & E & H). exists (x :: b), a. rewrite E. auto.
      * intros (b & a & E & Hv & H). destruct b as [|z b].
        -- cbn in E. injection E as E1 E2. subst x a. destruct N as (w & Hw & Ew). destruct (H w Hw Ew).
        -- cbn in E. injection E as E1 E2. exists b, a. auto.
    + cbn [arg_get]. destruct (rel_eqb (rel_of x) g) eqn:E.
      * apply rel_eqb_ok in E. assert (N : forall w, In w vs -> rel_of w <> g).
        { clear -Ey. induction vs as [|s vs IH]; intros w []; cbn [map args_get] in Ey; destruct (args_get g (map AProp vs)); try discriminate.
          - subst s. cbn [arg_get] in Ey. destruct (rel_eqb (rel_of w) g) eqn:E; [discriminate|]. intros K. apply rel_eqb_ok in K. congruence.
          - apply IH; auto. }
        split.
        -- intros [= <-]. exists [], vs. auto.
        -- intros (b & a & E' & Hv & H). destruct b as [|z b]; cbn in E'; [injection E' as -> _; reflexivity|]. injection E' as _ E'. exfalso. apply (N v); [|exact Hv]. rewrite E'. apply in_app_iff. right; left; reflexivity.
      * split; [discriminate|]. intros (b & a & E' & Hv & H). destruct b as [|z b]; cbn in E'.
        -- injection E' as -> _. apply rel_eqb_ok in Hv. congruence.
        -- injection E' as _ E'. apply IH. exists b, a. auto.
Qed.
Lemma identifiers_specify l vs : identifiers l vs -> forall g v,
  list_specifies l g v <-> exists before after, vs = before ++ v :: after /\ rel_of v = g /\ forall w, In w after -> rel_of w <> g.
Proof.
  intros H g v. unfold list_specifies. induction H as [|l vs H IH|x l vs H IH].
  - split; [intros (b & x & a & E & _)|intros (b & a & E & _)]; destruct b; discriminate.
  - rewrite <- IH. split; intros (b & x & a & E & Hm & Hv & Ha).
    + destruct b as [|y b]; cbn in E.
      * injection E as <- _. apply C75_table in Hm. exfalso. apply (verbose_id_nonempty v). auto.
      * injection E as _ E. exists b, x, a. auto.
    + exists ([] :: b), x, a. rewrite E. auto.
  - assert (M : forall w, In w vs <-> exists y, In y l /\ means y w).
    { clear IH. intros w. induction H as [|l vs H IH|y l vs H IH].
      - split; [intros []|intros (y & [] & _)].
      - rewrite IH. split; intros (y & Hy & Hm); [exists y; split; [right|]; assumption|]. destruct Hy as [<-|Hy]; [|eauto]. apply C75_table in Hm. exfalso. apply (verbose_id_nonempty w). auto.
      - split.
        + intros [->|Hw]; [exists (verbose_id w); split; [left; reflexivity|apply C75_table; reflexivity]|]. apply IH in Hw as (z & Hz & Hm). exists z. split; [right|]; assumption.
        + intros (z & [<-|Hz] & Hm); [left; apply C75_table in Hm; apply verbose_id_inj, Hm|right; apply IH; eauto]. }
    split.
    + intros (b & y & a & E & Hm & Hv & Ha). destruct b as [|z b]; cbn in E; injection E as E1 E2.
      * subst y a. apply C75_table in Hm. apply verbose_id_inj in Hm. subst x. exists [], vs. split; [reflexivity|]. split; [exact Hv|]. intros w Hw. apply M in Hw as (y & Hy & Hm). exact (Ha y w Hy Hm).
      * destruct (proj1 IH) as (b' & a' & E' & H'); [exists b, y, a; auto|]. exists (x :: b'), a'. rewrite E'. auto.
    + intros (b & a & E & Hv & Ha). destruct b as [|z b]; cbn in E; injection E as E1 E2.
      * subst x a. exists [], (verbose_id v), l. split; [reflexivity|]. split; [apply C75_table; reflexivity|]. split; [exact Hv|]. intros y w Hy Hm. apply Ha. apply M. eauto.
      * destruct (proj2 IH) as (b' & y & a' & E' & H'); [exists b, a; auto|]. exists (verbose_id x :: b'), y, a'. rewrite E'. auto.
Qed.
Lemma documented_identifiers l : (forall x, In x l -> x = [] \/ exists p, means x p) -> exists vs, identifiers l vs.
Proof.
  induction l as [|x l IH]; intros H; [exists []; constructor|]. destruct IH as [vs Hvs]; [intros y Hy; apply H; right; exact Hy|].
  destruct (H x (or_introl eq_refl)) as [->|[p Hp]]; [exists vs; constructor; exact Hvs|]. apply C75_table in Hp. subst x. exists (p :: vs). constructor. exact Hvs.
Qed.
(** a list of documented identifiers is accepted, with the documented meaning: of several properties of a group the last one is taken *)
Theorem C75_accepted : forall U ext a b c r s elements, no_bar a [b] -> trimmed U a (c :: r) -> trimmed U (u_lower U b) s -> ~ In s (dkeys ext) -> comma_list s elements ->
  (forall x, In x elements -> x = [] \/ exists p, means x p) ->
  exists p, parse_substitution U (variable a [b]) ext =
      Ok {| s_id := u_lower U (c :: r); s_deps := DProps p :: (if u_isupper U c then [DProps (Properties [AProp WORD_CASE_UPPER])] else []) |} /\
    is_properties p /\ forall g v, holds p g v <-> list_specifies elements g v.
Proof.
  intros U ext a b c r s elements Hb Ha Hs Hn Hc Hd. destruct (documented_identifiers elements Hd) as [vs Hvs].
  exists (Properties (map AProp vs)). split.
  - apply (C30_parsed U ext a [b] c r [DProps (Properties (map AProp vs))] Hb Ha). constructor; [|constructor]. apply (reads_properties U ext b s vs Hs Hn). exists elements. auto.
  - split; [apply Properties_ok; intros q Hq; apply in_map_iff in Hq as (v & E & _); discriminate|].
    intros g v. rewrite records_hold_iff. symmetry. apply identifiers_specify, Hvs.
Qed.
(** any other list is rejected, with the first undocumented identifier in the error *)
Theorem C75_rejected : forall U ext a b c r s before x after, no_bar a [b] -> trimmed U a (c :: r) -> trimmed U (u_lower U b) s -> ~ In s (dkeys ext) -> comma_list s (before ++ x :: after) ->
  (forall y, In y before -> y = [] \/ exists p, means y p) -> x <> [] -> (forall p, ~ means x p) ->
  parse_substitution U (variable a [b]) ext = Err (UnknownVerboseIdError x).
Proof.
  intros U ext a b c r s before x after Hb Ha Hs Hn Hc Hd Hx Hm. destruct (documented_identifiers before Hd) as [vs Hvs].
  apply C30_errors; [exact Hb|]. right; left. split; [intros ->; destruct Ha as (y & z & E & _); destruct y; discriminate|].
  exists [], b, [], [], x. split; [reflexivity|]. split; [constructor|]. split; [|reflexivity]. exists s. split; [exact Hs|]. split; [exact Hn|].
  exists before, after, vs. split; [exact Hc|]. split; [exact Hvs|]. split; [exact Hx|]. intros v E. apply (Hm v). apply C75_table. exact E.
Qed.
Example C75_case : comma_list (u "прш,ед,од,мн") [u "прш"; u "ед"; u "од"; u "мн"] /\ means (u "прш") TIME_PAST /\
  list_specifies [u "прш"; u "ед"; u "од"; u "мн"] R_NUMBER NUMBER_PLURAL /\ (forall p, ~ means (u "согл") p) /\
  parse_substitution ru_unicode (u "[coin|прш,ед,од,мн]") [] = Ok {| s_id := u "coin"; s_deps := [DProps (Properties [AProp TIME_PAST; AProp NUMBER_PLURAL; AProp ANIMALITY_ANIMATE])] |} /\
  parse_substitution ru_unicode (u "[coin|прш,согл]") [] = Err (UnknownVerboseIdError (u "согл")).
Proof.
  split; [split; [discriminate|split; [reflexivity|repeat (constructor; [intros H; vm_compute in H; repeat (destruct H as [H|H]; [discriminate|]); destruct H|]); constructor]]|].
  split; [apply C75_table; reflexivity|]. split.
  { exists [u "прш"; u "ед"; u "од"], (u "мн"), []. split; [reflexivity|]. split; [apply C75_table; reflexivity|]. split; [reflexivity|intros y w []]. }
  split; [|split; vm_compute; reflexivity]. intros p Hp. apply C75_table in Hp.
  assert (G : negb (str_eqb (u "согл") (verbose_id p)) = true) by (apply (in_all_prop (fun p => negb (str_eqb (u "согл") (verbose_id p)))); vm_compute; reflexivity).
  rewrite <- Hp in G. vm_compute in G. discriminate.
Qed.
