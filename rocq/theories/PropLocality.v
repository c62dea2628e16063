(** * PropLocality: C63-C65, what the result of a call depends on *)
From Coq Require Import Lia.
From Verif Require Import PyBase PyFloat Relations Restrictions Logic Data Words Transformators Dictionary Templates SpecProps SpecSlots SpecDictionary
  SpecAgreement SpecTemplates SpecSubstitution SpecLocality PyBaseFacts PropsFacts SlotFacts LookupFacts WordFacts DictFacts TemplateFacts SubstFacts
  PropSlots PropWords PropDictionary PropSyntax PropSubstitution.

(** ** C63 *)
Lemma same_external_dget ext ext' name : NoDup (dkeys ext) -> NoDup (dkeys ext') -> same_external ext ext' name -> dget str_eqb name ext = dget str_eqb name ext'.
Proof.
  intros N N' H. destruct (dget str_eqb name ext) as [f|] eqn:E.
  - apply (dget_In _ str_eqb_ok) in E. apply H in E. symmetry. apply (In_dget _ str_eqb_ok); assumption.
  - destruct (dget str_eqb name ext') as [f|] eqn:E'; [|reflexivity]. apply (dget_In _ str_eqb_ok) in E'. apply H in E'.
    apply (In_dget _ str_eqb_ok) in E'; [congruence|assumption].
Qed.
Lemma foldM_ext {A B} (f g : A -> B -> result A) l : (forall a b, In b l -> f a b = g a b) -> forall a, foldM f l a = foldM g l a.
Proof.
  intros H. induction l as [|b l IH]; intros a; [reflexivity|]. simpl. rewrite (H a b (or_introl eq_refl)). destruct (g a b) as [a'|]; [|reflexivity].
  simpl. apply IH. intros; apply H; right; assumption.
Qed.
Lemma mapM_ext_in {A B} (f g : A -> result B) l : (forall a, In a l -> f a = g a) -> mapM f l = mapM g l.
Proof.
  intros H. induction l as [|a l IH]; [reflexivity|]. simpl. rewrite (H a (or_introl eq_refl)), IH; [reflexivity|]. intros; apply H; right; assumption.
Qed.
Lemma dmem_names (ext ext' : externals) name : (In name (dkeys ext) <-> In name (dkeys ext')) -> dmem str_eqb name ext = dmem str_eqb name ext'.
Proof.
  intros H. destruct (dmem str_eqb name ext) eqn:E, (dmem str_eqb name ext') eqn:E'; try reflexivity.
  - apply (dmem_iff _ str_eqb_ok) in E. apply H in E. apply (dmem_iff _ str_eqb_ok) in E. congruence.
  - apply (dmem_iff _ str_eqb_ok) in E'. apply H in E'. apply (dmem_iff _ str_eqb_ok) in E'. congruence.
Qed.
(** printing a variable depends on the externals it mentions and, when its identifier is no external, on the dictionary entry of the identifier *)
Theorem C63_variable : forall U s ext ext' d d', NoDup (dkeys ext) -> NoDup (dkeys ext') ->
  same_external ext ext' (s_id s) -> (forall name, In (DExt name) (s_deps s) -> same_external ext ext' name) ->
  (~ In (s_id s) (dkeys ext) -> same_entry d d' (s_id s)) ->
  get_text U s ext d = get_text U s ext' d'.
Proof.
  intros U s ext ext' d d' N N' Hid Hdeps Hd. unfold get_text. assert (E : base_form_of ext d (s_id s) = base_form_of ext' d' (s_id s)).
  { unfold base_form_of. rewrite <- (same_external_dget ext ext' (s_id s) N N' Hid). destruct (dget str_eqb (s_id s) ext) eqn:Ed; [reflexivity|].
    apply Hd. intros H. apply (dget_None _ str_eqb_ok) in Ed. contradiction. }
  rewrite E. destruct (base_form_of ext' d' (s_id s)) as [f|e]; [|reflexivity]. cbn [bind].
  assert (L : list_properties ext (s_deps s) = list_properties ext' (s_deps s)).
  { unfold list_properties. apply foldM_ext. intros acc [name|p] Hin; [|reflexivity]. simpl. rewrite (same_external_dget ext ext' name N N' (Hdeps name Hin)). reflexivity. }
  rewrite L. reflexivity.
Qed.
Theorem C63_substitute : forall U t ext ext' d d', NoDup (dkeys ext) -> NoDup (dkeys ext') ->
  (forall name, mentioned t name -> same_external ext ext' name) ->
  (forall s, In s (t_subs t) -> ~ In (s_id s) (dkeys ext) -> same_entry d d' (s_id s)) ->
  substitute U t ext d = substitute U t ext' d' /\ get_undictionaried_words t ext d = get_undictionaried_words t ext' d'.
Proof.
  intros U t ext ext' d d' N N' He Hd. split.
  - unfold substitute. rewrite (mapM_ext_in _ (fun s => get_text U s ext' d')); [reflexivity|]. intros s Hs. apply C63_variable; [exact N|exact N'| | |apply Hd, Hs].
    + apply He. exists s. auto.
    + intros name Hn. apply He. exists s. auto.
  - unfold get_undictionaried_words. assert (H : forall s, In s (t_subs t) -> same_external ext ext' (s_id s)) by (intros s Hs; apply He; exists s; auto).
    clear He. induction (t_subs t) as [|s l IH]; [reflexivity|]. simpl. rewrite IH; [|intros; apply Hd; [right|]; assumption|intros; apply H; right; assumption]. f_equal.
    unfold dmem. assert (E := same_external_dget ext ext' (s_id s) N N' (H s (or_introl eq_refl))). rewrite <- E. destruct (dget str_eqb (s_id s) ext) eqn:Ed; [reflexivity|].
    assert (Hs : same_entry d d' (s_id s)) by (apply Hd; [left; reflexivity|]; intros K; apply (dget_None _ str_eqb_ok) in Ed; contradiction).
    unfold same_entry, get_word, has_word, dmem in *. destruct (dget str_eqb (s_id s) d), (dget str_eqb (s_id s) d'); try reflexivity; discriminate.
Qed.
(** in particular an external that the template does not mention can be added, *)
Theorem C63_unmentioned_external : forall U t ext d name f, NoDup (dkeys ext) -> ~ In name (dkeys ext) -> ~ mentioned t name ->
  substitute U t ((name, f) :: ext) d = substitute U t ext d.
Proof.
  intros U t ext d name f N Hn Hm. apply C63_substitute; [constructor; assumption|exact N| |].
  - intros n Hment g. simpl. split; [intros [[= -> _]|H]; [contradiction|exact H]|auto].
  - intros s _ _. reflexivity.
Qed.
(** ... and parse looks at the names of the externals only, not at their values or order *)
Theorem C63_parse : forall U t text ext ext', same_names ext ext' -> parse_template U t text ext = parse_template U t text ext'.
Proof.
  intros U t text ext ext' H. assert (Hs : forall v, parse_substitution U v ext = parse_substitution U v ext').
  { intros v. unfold parse_substitution. destruct (split_on BAR (unbracket v)) as [|[|c a] bs]; try reflexivity.
    assert (E : mapM (parse_dependency U ext) bs = mapM (parse_dependency U ext') bs).
    { apply mapM_ext_in. intros b _. unfold parse_dependency. rewrite (dmem_names ext ext' _ (H _)). reflexivity. }
    rewrite E. reflexivity. }
  unfold parse_template. assert (G : forall vs text subs, parse_loop U ext vs text subs = parse_loop U ext' vs text subs).
  { induction vs as [|v vs IH]; intros tx subs; [reflexivity|]. cbn [parse_loop]. rewrite Hs. destruct (parse_substitution U v ext'); [apply IH|reflexivity]. }
  rewrite G. reflexivity.
Qed.
(** [монета|n] does not depend on the external hero *)
Example C63_case : exists t, parse_template ru_unicode new_template (u "[монета|n]") ext2 = (t, Ok tt) /\ mentioned t (u "n") /\ ~ mentioned t (u "hero") /\
  same_external ext2 (filter (fun kv => negb (str_eqb (fst kv) (u "hero"))) ext2) (u "n") /\
  ~ same_external ext2 (filter (fun kv => negb (str_eqb (fst kv) (u "hero"))) ext2) (u "hero").
Proof.
  eexists. split; [vm_compute; reflexivity|]. split; [eexists; split; [left; reflexivity|right; left; reflexivity]|].
  split; [intros (s & [<-|[]] & [H|H]); [discriminate|simpl in H; repeat (destruct H as [[=]|H]); destruct H]|].
  split.
  - intros f. rewrite filter_In. split; [intros H; split; [exact H|vm_compute; reflexivity]|intros [H _]; exact H].
  - intros H. assert (E : exists f, In (u "hero", f) ext2) by (eexists; simpl; repeat (first [left; reflexivity|right])). destruct E as [f E]. apply H in E. apply filter_In in E as [_ E]. discriminate.
Qed.

(** ** C64 *)
Theorem C64_other_texts : forall U d w lw t, is_word w -> all_forms w = Ok lw -> (forall f, In f lw -> wf_form U f <> Ok t) ->
  get_word (fst (add_word U d w)) t = get_word d t /\ has_word (fst (add_word U d w)) t = has_word d t.
Proof.
  intros U d w lw t Hw El Hn. assert (G : dget str_eqb t (fst (add_word U d w)) = dget str_eqb t d); [|unfold get_word, has_word, dmem; rewrite G; auto].
  unfold add_word. assert (Hi : forall i k, nth_error (INVERTED_WORDS_CACHES (w_type w)) i = Some k -> i < length (w_forms w) -> In (WordForm w (Some (key_props k)) None) lw).
  { intros i k Hk L. rewrite (all_forms_eq w Hw) in El. injection El as <-. apply in_map_iff. exists k. split; [reflexivity|]. exact (nth_error_In _ _ Hk). }
  assert (Hs : forall i, In i (seq 0 (length (w_forms w))) -> i < length (w_forms w)) by (intros i H; apply in_seq in H; lia).
  revert d Hs. generalize (seq 0 (length (w_forms w))). induction l as [|i l IH]; intros d Hs; [reflexivity|]. cbn [add_forms].
  destruct (py_nth (INVERTED_WORDS_CACHES (w_type w)) i) as [k|e] eqn:Ek; [|reflexivity]. cbn [bind].
  destruct (add_form U d (WordForm w (Some (key_props k)) None)) as [d'|e] eqn:Ea; [|reflexivity].
  rewrite IH; [|intros j Hj; apply Hs; right; exact Hj].
  assert (Hin := Hn _ (Hi i k (proj1 (py_nth_ok _ _ _) Ek) (Hs i (or_introl eq_refl)))).
  unfold add_form in Ea. destruct (wf_form U (WordForm w (Some (key_props k)) None)) as [x|]; [|discriminate]. cbn [bind] in Ea.
  assert (Hx : str_eqb x t = false) by (destruct (str_eqb x t) eqn:Ex; [apply str_eqb_ok in Ex; subst; exfalso; apply Hin; reflexivity|reflexivity]).
  assert (K : forall f, dget str_eqb t (dset str_eqb x f d) = dget str_eqb t d) by (intros f; rewrite (dget_dset _ str_eqb_ok), Hx; reflexivity).
  destruct (dget str_eqb x d); [destruct (replaces _ _)|]; injection Ea as <-; auto.
Qed.
(** hence a word with other texts than those of the template changes nothing *)
Theorem C64_irrelevant_word : forall U t ext d w lw, NoDup (dkeys ext) -> is_word w -> all_forms w = Ok lw ->
  (forall s f, In s (t_subs t) -> In f lw -> wf_form U f <> Ok (s_id s)) ->
  substitute U t ext (fst (add_word U d w)) = substitute U t ext d.
Proof.
  intros U t ext d w lw N Hw El H. apply C63_substitute; [exact N|exact N|intros name _ f; reflexivity|].
  intros s Hs _. apply (C64_other_texts U d w lw (s_id s) Hw El). intros f Hf. apply H; assumption.
Qed.
Example C64_case : exists lw, all_forms lion = Ok lw /\ (forall f, In f lw -> wf_form ru_unicode f <> Ok (u "монета")) /\ is_word lion.
Proof.
  destruct (all_forms lion) as [lw|] eqn:E; [|vm_compute in E; discriminate]. exists lw. split; [reflexivity|]. split; [|apply C55_case].
  intros f Hf Ht. assert (K : existsb (fun f => match wf_form ru_unicode f with Ok x => str_eqb x (u "монета") | Err _ => false end) (match all_forms lion with Ok l => l | Err _ => [] end) = false) by (vm_compute; reflexivity).
  rewrite E in K. assert (K' : existsb (fun f => match wf_form ru_unicode f with Ok x => str_eqb x (u "монета") | Err _ => false end) lw = true); [|congruence].
  apply existsb_exists. exists f. split; [exact Hf|]. rewrite Ht. apply str_eqb_ok. reflexivity.
Qed.

(** ** C65 *)
Lemma finished_last l : finished l -> (forall a v b, is_variable v -> l <> a ++ v ++ b) -> closed l.
Proof.
  intros Hf Hn a b E. destruct b as [|c b]; [destruct (Hf a [] E)|]. destruct (N.eqb_spec c RBR) as [->|Hc]; [eauto|]. exfalso.
  assert (Hr := Hf a (c :: b) E). destruct Hr as [Hr|Hr]; [contradiction|]. 
  assert (S : exists x y, b = x ++ RBR :: y /\ ~ In RBR x).
  { clear -Hr. induction b as [|d b IH]; [destruct Hr|]. destruct (N.eqb_spec d RBR) as [->|Hd]; [exists [], b; split; [reflexivity|intros []]|].
    destruct Hr as [Hr|Hr]; [contradiction|]. destruct (IH Hr) as (x & y & -> & Hx). exists (d :: x), y. split; [reflexivity|]. intros [K|K]; [contradiction|exact (Hx K)]. }
  destruct S as (x & y & -> & Hx).
  apply (Hn a (LBR :: (c :: x) ++ [RBR]) y).
  - exists (c :: x). split; [reflexivity|]. split; [discriminate|]. intros [K|K]; [contradiction|exact (Hx K)].
  - rewrite E. cbn [app]. rewrite <- app_assoc. reflexivity.
Qed.
Lemma finished_tail l v t : finished (l ++ v ++ t) -> finished t.
Proof. intros H a b ->. apply (H (l ++ v ++ a) b). rewrite <- !app_assoc. reflexivity. Qed.
Lemma closed_no_variable l m : closed l -> (forall a v b, is_variable v -> m <> a ++ v ++ b) -> forall a v b, is_variable v -> l ++ m <> a ++ v ++ b.
Proof.
  intros Hc Hm a v b Hv E. destruct (Nat.le_gt_cases (length l) (length a)) as [L|L].
  - destruct (app_length_split _ _ _ _ E L) as (x & -> & Ex). exact (Hm x v b Hv Ex).
  - symmetry in E. destruct (app_length_split _ _ _ _ E) as (x & -> & Ex); [lia|]. rewrite app_length in L. destruct x as [|c x]; [simpl in L; lia|].
    destruct (variable_head v Hv) as (y & r & -> & Hy). simpl in Ex. injection Ex as <- Ex. destruct (Hc a x eq_refl) as [x' ->]. simpl in Ex. injection Ex as K _. contradiction.
Qed.
Lemma cuts_app a la va : cuts a la va -> finished a -> forall b m lb vb, cuts b (m :: lb) vb ->
  exists la' l, la = la' ++ [l] /\ cuts (a ++ b) (la' ++ (l ++ m) :: lb) (va ++ vb).
Proof.
  induction 1 as [l Hl|l v t ls vs Hv Hleft Ht IH]; intros Hf b m lb vb Hb.
  - exists [], l. split; [reflexivity|]. assert (Hc := finished_last l Hf Hl). inversion Hb as [l0 Hl0|l0 v0 t0 ls0 vs0 Hv0 Hleft0 Ht0]; subst; simpl.
    + constructor. apply closed_no_variable; assumption.
    + rewrite app_assoc. apply cuts_closed; [exact Hv0| |exact Ht0]. apply closed_app; [exact Hc|]. exact (leftmost_closed _ _ _ Hv0 Hleft0).
  - destruct (IH (finished_tail _ _ _ Hf) b m lb vb Hb) as (la' & l1 & -> & Hcut). exists (l :: la'), l1. split; [reflexivity|].
    rewrite <- !app_assoc. cbn [app]. apply cuts_closed; [exact Hv|exact (leftmost_closed _ _ _ Hv Hleft)|exact Hcut].
Qed.
Lemma weave_app la l m lb xs ys : length xs = length la -> weave (la ++ (l ++ m) :: lb) (xs ++ ys) = weave (la ++ [l]) xs ++ weave (m :: lb) ys.
Proof.
  revert xs. induction la as [|x la IH]; intros [|y xs] L; try discriminate; simpl in *.
  - destruct ys; rewrite <- ?app_assoc; reflexivity.
  - rewrite IH by lia. rewrite <- !app_assoc. reflexivity.
Qed.
Lemma parsed_outcome U ext text ls vs : cuts text ls vs ->
  match mapM (fun v => parse_substitution U v ext) (map escape vs) with
  | Ok new => parse_template U new_template text ext = ({| t_subs := new; t_text := Some (weave (map escape ls) (map (fun _ => PS) vs)) |}, Ok tt)
  | Err e => snd (parse_template U new_template text ext) = Err e
  end.
Proof.
  intros H. destruct (parse_template_cuts U new_template text ext ls vs H) as [H1 H2]. destruct (mapM _ _) as [new|e] eqn:E.
  - apply mapM_ok in E. rewrite (H1 new E). reflexivity.
  - apply mapM_err in E as (l1 & v & l2 & E & He & Hf).
    assert (Hn : exists new, Forall2 (fun v s => parse_substitution U v ext = Ok s) l1 new).
    { clear -Hf. induction Hf as [|x l [s Hs] _ [new Hn]]; [exists []; constructor|exists (s :: new); constructor; assumption]. }
    destruct Hn as [new Hn]. rewrite (H2 l1 v l2 new e E Hn He). reflexivity.
Qed.
Lemma substitute_parsed U ls (vs : list str) subs ext d : length ls = S (length vs) -> length subs = length vs ->
  substitute U {| t_subs := subs; t_text := Some (weave (map escape ls) (map (fun _ => PS) vs)) |} ext d =
  (texts <- mapM (fun s => get_text U s ext d) subs ;; Ok (weave ls texts)).
Proof.
  intros L L'. unfold substitute. cbn [t_subs t_text]. destruct (mapM _ subs) as [texts|e] eqn:E; [|reflexivity]. cbn [bind].
  rewrite (py_format_weave _ _ L). rewrite (mapM_length _ _ _ E), L', Nat.eqb_refl. reflexivity.
Qed.
(** parsing a text piece by piece: a finished text and what follows it do not influence each other *)
Theorem C65_concatenation : forall U ext a b ta ra tb rb t r, finished a ->
  parse_template U new_template a ext = (ta, ra) -> parse_template U new_template b ext = (tb, rb) -> parse_template U new_template (a ++ b) ext = (t, r) ->
  (forall e, ra = Err e -> r = Err e) /\ (forall e, ra = Ok tt -> rb = Err e -> r = Err e) /\
  (ra = Ok tt -> rb = Ok tt -> r = Ok tt /\ t_subs t = t_subs ta ++ t_subs tb /\
     forall U' ext' d, get_undictionaried_words t ext' d = get_undictionaried_words ta ext' d ++ get_undictionaried_words tb ext' d /\
       both (substitute U' ta ext' d) (substitute U' tb ext' d) (substitute U' t ext' d)).
Proof.
  intros U ext a b ta ra tb rb t r Hf Ha Hb Hab.
  destruct (cuts_exists a) as (la & va & Ca). destruct (cuts_exists b) as (lb0 & vb & Cb).
  assert (Lb := cuts_lengths _ _ _ Cb). destruct lb0 as [|m lb]; [discriminate|]. destruct (cuts_app a la va Ca Hf b m lb vb Cb) as (la' & l & -> & Cab).
  assert (La := cuts_lengths _ _ _ Ca). assert (Lab := cuts_lengths _ _ _ Cab).
  assert (Pa := parsed_outcome U ext a _ va Ca). assert (Pb := parsed_outcome U ext b _ vb Cb). assert (Pab := parsed_outcome U ext (a ++ b) _ _ Cab).
  rewrite map_app, mapM_app in Pab. rewrite Ha in Pa. rewrite Hb in Pb. rewrite Hab in Pab.
  destruct (mapM (fun v => parse_substitution U v ext) (map escape va)) as [na|ea] eqn:Ea; cbn [bind] in Pab.
  2:{ cbn [snd] in *. subst ra r. repeat split; congruence. }
  apply pair_equal_spec in Pa as [-> ->]. destruct (mapM (fun v => parse_substitution U v ext) (map escape vb)) as [nb|eb] eqn:Eb; cbn [bind] in Pab.
  2:{ cbn [snd] in *. subst rb r. repeat split; congruence. }
  apply pair_equal_spec in Pb as [-> ->]. apply pair_equal_spec in Pab as [-> ->]. split; [discriminate|]. split; [discriminate|]. intros _ _. split; [reflexivity|]. split; [reflexivity|].
  assert (Na := mapM_length _ _ _ Ea). rewrite map_length in Na. assert (Nb := mapM_length _ _ _ Eb). rewrite map_length in Nb.
  intros U' ext' d. split; [unfold get_undictionaried_words; cbn [t_subs]; apply flat_map_app|].
  rewrite (substitute_parsed U' _ va na ext' d La Na), (substitute_parsed U' _ vb nb ext' d Lb Nb).
  rewrite (substitute_parsed U' _ (va ++ vb) (na ++ nb) ext' d Lab) by (rewrite !app_length; congruence).
  rewrite mapM_app. destruct (mapM (fun s => get_text U' s ext' d) na) as [xa|e] eqn:Xa; [|reflexivity]. cbn [bind].
  destruct (mapM (fun s => get_text U' s ext' d) nb) as [xb|e] eqn:Xb; [|reflexivity]. cbn [bind both].
  rewrite weave_app; [reflexivity|]. rewrite (mapM_length _ _ _ Xa), Na. clear -La; rewrite app_length in La; rewrite Nat.add_1_r in La; injection La as La; symmetry; exact La.
Qed.
(** so a variable (with all its properties) acts in its place only: replacing it by another one leaves the rest as it is *)
Theorem C65_only_at_its_place : forall U ext a v b ta tv tb, finished a -> is_variable v ->
  parse_template U new_template a ext = (ta, Ok tt) -> parse_template U new_template v ext = (tv, Ok tt) -> parse_template U new_template b ext = (tb, Ok tt) ->
  exists t, parse_template U new_template (a ++ v ++ b) ext = (t, Ok tt) /\
    forall U' ext' d xa xv xb, substitute U' ta ext' d = Ok xa -> substitute U' tv ext' d = Ok xv -> substitute U' tb ext' d = Ok xb ->
      substitute U' t ext' d = Ok (xa ++ xv ++ xb).
Proof.
  intros U ext a v b ta tv tb Hf Hv Ha Hvp Hb.
  assert (Fv : finished v).
  { destruct Hv as (x & -> & _ & Hx). intros p q E. destruct p as [|c p]; simpl in E; [injection E as E2|injection E as _ E2].
    - subst q. apply in_app_iff. right; left; reflexivity.
    - destruct (exists_last (l := LBR :: q)) as (q' & c' & Eq); [discriminate|]. rewrite Eq, app_assoc in E2. apply app_inj_tail in E2 as [_ <-].
      assert (K : In RBR (LBR :: q)) by (rewrite Eq; apply in_app_iff; right; left; reflexivity). destruct K as [K|K]; [discriminate|exact K]. }
  destruct (parse_template U new_template (v ++ b) ext) as [tvb rvb] eqn:Hvb. destruct (parse_template U new_template (a ++ v ++ b) ext) as [t r] eqn:Habc.
  destruct (C65_concatenation U ext v b _ _ _ _ _ _ Fv Hvp Hb Hvb) as (_ & _ & K). destruct (K eq_refl eq_refl) as (-> & _ & K1).
  destruct (C65_concatenation U ext a (v ++ b) _ _ _ _ _ _ Hf Ha Hvb Habc) as (_ & _ & K'). destruct (K' eq_refl eq_refl) as (-> & _ & K2).
  exists t. split; [reflexivity|]. intros U' ext' d xa xv xb Xa Xv Xb. destruct (K1 U' ext' d) as [_ B1]. destruct (K2 U' ext' d) as [_ B2].
  rewrite Xv, Xb in B1. simpl in B1. rewrite Xa, B1 in B2. exact B2.
Qed.
Fixpoint finishedb (l : str) : bool :=
  match l with [] => true | c :: r => (if N.eqb c LBR then existsb (N.eqb RBR) r else true) && finishedb r end.
Lemma finishedb_ok l : finishedb l = true -> finished l.
Proof.
  induction l as [|c l IH]; intros H a b E; [destruct a; discriminate|]. cbn [finishedb] in H. apply Bool.andb_true_iff in H as [H1 H2].
  destruct a as [|d a]; cbn [app] in E.
  - assert (E1 : c = LBR) by congruence. assert (E2 : l = b) by congruence. subst. rewrite N.eqb_refl in H1. apply existsb_exists in H1 as (x & Hx & K). apply N.eqb_eq in K. subst. exact Hx.
  - apply (IH H2 a b). congruence.
Qed.
(** without "finished" this is false: the pieces "[" and "монета]" are plain texts, together they are a variable *)
Example C65_case : finished (u "а [монета] ") /\ ~ finished (u "[") /\
  let t := fst (parse_template ru_unicode new_template (u "а [монета] " ++ u "[монета|n]") ext2) in
  substitute ru_unicode t ext2 dict2 = Ok (u "а монета монет") /\
  substitute ru_unicode (fst (parse_template ru_unicode new_template (u "[" ++ u "монета]") ext2)) ext2 dict2 = Ok (u "монета") /\
  substitute ru_unicode (fst (parse_template ru_unicode new_template (u "монета]") ext2)) ext2 dict2 = Ok (u "монета]").
Proof.
  split.
  - apply finishedb_ok. vm_compute. reflexivity.
  - split; [intros H; destruct (H [] [] eq_refl)|]. vm_compute. auto.
Qed.
