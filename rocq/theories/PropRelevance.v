(** * PropRelevance: C71, which properties matter for a printed text *)
From Coq Require Import Lia.
From Verif Require Import CaseTools PyBase Relations Restrictions Logic Data Words Transformators Dictionary Templates SpecProps SpecSlots SpecDictionary
  SpecAgreement SpecTemplates SpecSubstitution SpecRelevance PyBaseFacts PropsFacts SlotFacts LookupFacts WordFacts DictFacts AgreementFacts TemplateFacts SubstFacts
  PropSlots PropWords PropDictionary PropAgreement PropSubstitution PropReadme.

Definition agree_on (G : relation -> Prop) (p q : props) : Prop := forall g, G g -> pget p g = pget q g.
(** two transformations do the same *)
Definition alike (p q : props) (x y : result props) : Prop :=
  (exists l, x = Ok (cloneP p l) /\ y = Ok (cloneP q l)) \/ (x = Ok p /\ y = Ok q) \/ exists e, x = Err e /\ y = Err e.
Ltac decide_alike := repeat match goal with
  | |- alike _ _ (bind ?x _) (bind ?x _) => destruct x; cbn [bind]
  | |- alike _ _ (if ?b then _ else _) (if ?b then _ else _) => destruct b
  | |- alike _ _ (Err _) (Err _) => right; right; eexists; split; reflexivity
  | |- alike ?p ?q (Ok ?p) (Ok ?q) => right; left; split; reflexivity
  | |- alike _ _ (Ok (cloneP _ ?l)) (Ok (cloneP _ ?l)) => left; exists l; split; reflexivity
  end.
Lemma noun_alike p q : agree_on (fun g => In g [R_DEPENDENCY_MODE; R_INTEGER_FORM; R_CASE; R_ANIMALITY]) p q -> alike p q (noun_integer p) (noun_integer q).
Proof.
  intros H. unfold noun_integer. rewrite (H R_INTEGER_FORM), (H R_DEPENDENCY_MODE), (H R_CASE), (H R_ANIMALITY) by (cbn; tauto). decide_alike.
Qed.
Lemma adjective_alike p q : agree_on (fun g => In g [R_DEPENDENCY_MODE; R_INTEGER_FORM; R_CASE; R_GENDER]) p q -> alike p q (adjective_integer p) (adjective_integer q).
Proof.
  intros H. unfold adjective_integer. rewrite (H R_INTEGER_FORM), (H R_DEPENDENCY_MODE), (H R_CASE), (H R_GENDER) by (cbn; tauto). decide_alike.
Qed.
Lemma preposition_alike U w m p q : alike p q (preposition_any U w p m) (preposition_any U w q m).
Proof. unfold preposition_any, consonant_preposition_any, vowels_preposition_any. decide_alike. Qed.


Ltac which := match goal with |- context[dget wt_pair_eqb (?a, ?b) TRANSFORMATORS] =>
  let v := eval vm_compute in (dget wt_pair_eqb (a, b) TRANSFORMATORS) in change (dget wt_pair_eqb (a, b) TRANSFORMATORS) with v end; cbv iota beta.
Lemma transform_alike U w ms m p q : In m ms -> agree_on (relevant (w_type w) ms) p q -> alike p q (transform U w p m) (transform U w q m).
Proof.
  intros Hm H. destruct (wt_eqb (w_type w) WT_PREPOSITION) eqn:Ep.
  { apply wt_eqb_ok in Ep. unfold transform. rewrite Ep. destruct (w_type (wf_word m)); which; apply preposition_alike. }
  apply (eqb_ok_neq _ wt_eqb_ok) in Ep. destruct (is_integer_dec m) as [Hi|Hi]; [|right; left; split; apply C44_identity; auto].
  assert (E : Exists is_integer ms) by (apply Exists_exists; eauto). unfold transform. unfold is_integer in Hi. rewrite Hi.
  assert (HN : noun_like (w_type w) -> alike p q (noun_integer p) (noun_integer q)) by (intros L; apply noun_alike; intros g Hg; apply H, rel_noun; assumption).
  assert (HA : adjective_like (w_type w) -> alike p q (adjective_integer p) (adjective_integer q)) by (intros L; apply adjective_alike; intros g Hg; apply H, rel_adjective; assumption).
  clear H E. destruct (w_type w) eqn:Ew; which; try (right; left; split; reflexivity); try congruence;
    first [apply HN; unfold noun_like; tauto|apply HA; unfold adjective_like; tauto].
Qed.
Lemma alike_agree (G : relation -> Prop) p q x y : props_wf p -> props_wf q -> agree_on G p q -> alike p q x y ->
  (exists p' q', x = Ok p' /\ y = Ok q' /\ props_wf p' /\ props_wf q' /\ agree_on G p' q') \/ exists e, x = Err e /\ y = Err e.
Proof.
  intros Hp Hq H [(l & -> & ->)|[[-> ->]|(e & -> & ->)]]; [left; exists (cloneP p l), (cloneP q l)|left; exists p, q|right; eauto].
  - split; [reflexivity|]. split; [reflexivity|]. split; [apply wf_cloneP, Hp|]. split; [apply wf_cloneP, Hq|]. intros g Hg. rewrite !pget_cloneP by assumption. rewrite (H g Hg). reflexivity.
  - auto.
Qed.
Lemma fold_agree U w all ms : incl ms all -> forall p q, props_wf p -> props_wf q -> agree_on (relevant (w_type w) all) p q ->
  (exists p' q', foldM (fun fp m => transform U w fp m) ms p = Ok p' /\ foldM (fun fp m => transform U w fp m) ms q = Ok q' /\ agree_on (relevant (w_type w) all) p' q') \/
  exists e, foldM (fun fp m => transform U w fp m) ms p = Err e /\ foldM (fun fp m => transform U w fp m) ms q = Err e.
Proof.
  induction ms as [|m ms IH]; intros Hi p q Hp Hq H; [left; exists p, q; auto|]. cbn [foldM].
  destruct (alike_agree _ p q _ _ Hp Hq H (transform_alike U w all m p q (Hi m (or_introl eq_refl)) H)) as [(p' & q' & -> & -> & Wp & Wq & H')|(e & -> & ->)]; cbn [bind].
  - apply IH; auto. intros x Hx. apply Hi. right. exact Hx.
  - right. eauto.
Qed.
Lemma get_form_agree U w ms p q : agree_on (relevant (w_type w) ms) p q -> get_form U w p = get_form U w q.
Proof.
  intros H. unfold get_form, is_upper. rewrite (word__form_ext w p q) by (intros g Hg; apply H, rel_schema, Hg). rewrite (H R_WORD_CASE) by constructor. reflexivity.
Qed.

(** two variables with the same base word and the same externals among their dependencies print the same (or raise the same
    error) if the values of the relevant groups are the same: nothing else that is written matters *)
Theorem C71_only_relevant_groups : forall U s s' ext d f ps ps' ms, good_externals ext -> is_dictionary U d -> good_deps (s_deps s) -> good_deps (s_deps s') ->
  s_id s' = s_id s -> base_form ext d (s_id s) f -> given ext (s_deps s) ps ms -> given ext (s_deps s') ps' ms ->
  (forall g v, relevant (w_type (wf_word f)) ms g -> (value_from (layers f ps) g v <-> value_from (layers f ps') g v)) ->
  get_text U s ext d = get_text U s' ext d.
Proof.
  intros U s s' ext d f ps ps' ms He Hd Hg Hg' Ei Hf G G' H. destruct (given_good _ _ _ _ He Hg G) as (Wps & _ & _). destruct (given_good _ _ _ _ He Hg' G') as (Wps' & _ & _).
  destruct (base_form_good U ext d _ f He Hd Hf) as [Wf _]. rewrite (get_text_eq U s ext d f ps ms He Hd Hf G). rewrite <- Ei in Hf. rewrite (get_text_eq U s' ext d f ps' ms He Hd Hf G').
  assert (A : agree_on (relevant (w_type (wf_word f)) ms) (merged f ps) (merged f ps')).
  { intros g R. destruct (value_from_exists (layers f ps) g (layers_wf f ps Wf Wps)) as [o Ho]. rewrite (proj1 (merged_pget f ps g o Wf Wps) Ho). symmetry. apply merged_pget; [exact Wf|exact Wps'|]. apply H; assumption. }
  destruct (fold_agree U (wf_word f) ms ms (incl_refl ms) _ _ (is_properties_wf _ (merged_good f ps Wf Wps)) (is_properties_wf _ (merged_good f ps' Wf Wps')) A) as [(p' & q' & -> & -> & A')|(e & -> & ->)]; cbn [bind]; [|reflexivity].
  eapply get_form_agree. exact A'.
Qed.

Lemma given_app ext a b ps ms : given ext (a ++ b) ps ms -> exists p1 p2 m1 m2, given ext a p1 m1 /\ given ext b p2 m2 /\ ps = p1 ++ p2 /\ ms = m1 ++ m2.
Proof.
  revert ps ms. induction a as [|dep a IH]; intros ps ms H; [exists [], ps, [], ms; repeat split; [constructor|exact H]|]. cbn [app] in H. inversion H; subst.
  - match goal with Q : given ext (a ++ b) _ _ |- _ => destruct (IH _ _ Q) as (p1 & p2 & m1 & m2 & A & B & -> & ->) end. exists (wf_props f :: p1), p2, (f :: m1), m2. repeat split; [constructor; assumption|exact B].
  - match goal with Q : given ext (a ++ b) _ _ |- _ => destruct (IH _ _ Q) as (p1 & p2 & m1 & m2 & A & B & -> & ->) end. exists (p :: p1), p2, m1, m2. repeat split; [constructor; assumption|exact B].
Qed.
Lemma given_join ext a b p1 p2 m1 m2 : given ext a p1 m1 -> given ext b p2 m2 -> given ext (a ++ b) (p1 ++ p2) (m1 ++ m2).
Proof. induction 1; intros H'; [exact H'|cbn; constructor; auto|cbn; constructor; auto]. Qed.
Lemma value_from_skip a p b g v : (forall x, ~ holds p g x) -> (value_from (a ++ p :: b) g v <-> value_from (a ++ b) g v).
Proof.
  intros N. revert v. induction a as [|q a IH]; intros v; cbn [app].
  - split; [intros H; inversion H; subst; [exfalso; eapply N; eassumption|assumption]|intros H; apply vf_next; assumption].
  - split; intros H; inversion H; subst; try (apply vf_here; assumption); (apply vf_next; [assumption|apply IH; assumption]).
Qed.
Lemma list_properties_more ext pre p post : list_properties ext (pre ++ DProps p :: post) =
  match list_properties ext (pre ++ post) with Err e => Err e | Ok _ => list_properties ext (pre ++ DProps p :: post) end.
Proof.
  unfold list_properties. rewrite !foldM_app. destruct (foldM (list_properties_step ext) pre ([], [])) as [[a b]|e]; [|reflexivity]. cbn [bind foldM list_properties_step fst snd].
  rewrite (list_properties_acc ext post (a ++ _)), (list_properties_acc ext post a). destruct (foldM (list_properties_step ext) post ([], [])); reflexivity.
Qed.

(** so a dependency can be left out if it specifies nothing for the relevant groups *)
Theorem C71_silent_dependency : forall U ext d id pre p post, good_externals ext -> is_dictionary U d -> good_deps (pre ++ DProps p :: post) ->
  (forall f ps ms g v, base_form ext d id f -> given ext (pre ++ post) ps ms -> relevant (w_type (wf_word f)) ms g -> ~ holds p g v) ->
  get_text U {| s_id := id; s_deps := pre ++ DProps p :: post |} ext d = get_text U {| s_id := id; s_deps := pre ++ post |} ext d.
Proof.
  intros U ext d id pre p post He Hd Hg H. destruct (base_form_cases ext d id He) as [[f Hf]|(_ & _ & E)].
  2: { unfold get_text. cbn [s_id]. rewrite E. reflexivity. }
  destruct (list_properties_missing ext (pre ++ post)) as [(ps & ms & G)|(name & _ & _ & E)].
  2: { unfold get_text. cbn [s_id s_deps]. rewrite list_properties_more, E. reflexivity. }
  assert (Hg' : good_deps (pre ++ post)). { intros q Hq. apply Hg. apply in_app_iff in Hq as [Hq|Hq]; apply in_app_iff; [left; exact Hq|right; right; exact Hq]. }
  destruct (given_app _ _ _ _ _ G) as (p1 & p2 & m1 & m2 & G1 & G2 & -> & ->).
  apply (C71_only_relevant_groups U {| s_id := id; s_deps := pre ++ DProps p :: post |} {| s_id := id; s_deps := pre ++ post |} ext d f (p1 ++ p :: p2) (p1 ++ p2) (m1 ++ m2)); auto; cbn [s_deps].
  - apply given_join; [exact G1|]. constructor. exact G2.
  - intros g v R. unfold layers. rewrite !rev_app_distr. cbn [rev]. rewrite <- !app_assoc. cbn [app]. apply (value_from_skip (w_props (wf_word f) :: rev p2) p). intros x. apply (H f (p1 ++ p2) (m1 ++ m2)); assumption.
Qed.

(** FINDING: the part of speech, which can be written as a property (сущ, гл, ...), never matters; in particular it does not
    choose between homonyms *)
Theorem C71_part_of_speech_ignored : forall U ext d id pre t post, good_externals ext -> is_dictionary U d -> good_deps (pre ++ post) -> In t (records R_WORD_TYPE) ->
  get_text U {| s_id := id; s_deps := pre ++ DProps (Properties [AProp t]) :: post |} ext d = get_text U {| s_id := id; s_deps := pre ++ post |} ext d.
Proof.
  intros U ext d id pre t post He Hd Hg Ht. apply C71_silent_dependency; auto.
  - intros p Hp. apply in_app_iff in Hp as [Hp|[[= <-]|Hp]]; [apply Hg, in_app_iff; left; exact Hp| |apply Hg, in_app_iff; right; exact Hp].
    apply Properties_ok. intros q [Hq|[]]. discriminate.
  - intros f ps ms g v _ _ R Hh. apply in_records in Ht. assert (E : g = R_WORD_TYPE).
    { apply holds_dget in Hh; [|apply wf_Properties; intros q [Hq|[]]; discriminate]. rewrite dget_Properties in Hh by (intros q [Hq|[]]; discriminate). cbn [args_get arg_get] in Hh.
      rewrite Ht in Hh. destruct (rel_eqb R_WORD_TYPE g) eqn:Eg; [apply rel_eqb_ok in Eg; auto|discriminate]. }
    subst g. inversion R as [g Hs|Hs|g Hs|g Hs]; subst; try (cbn in *; intuition discriminate). destruct (w_type (wf_word f)); cbn in Hs; intuition discriminate.
Qed.

(** a verb that has the noun's text монета among its forms; the verb was added first *)
Definition homonym : word := {| w_type := WT_VERB; w_forms := u "монета" :: tl (w_forms bit); w_props := w_props bit |}.
Definition dict5 : dictionary := after ru_unicode [homonym; coin].
Lemma dict5_good : is_dictionary ru_unicode dict5.
Proof.
  apply (is_dictionary_after ru_unicode [homonym; coin]). constructor; [|constructor; [apply coin_is_word|constructor]].
  apply is_word_iff; split; [exact (plain_properties [ASPECT_PERFECTIVE])|vm_compute; reflexivity].
Qed.
(** [монета|n|дт]: a tense is not relevant for a noun, with or without an integer; the animality is, with one; [монета|гл]
    prints the noun *)
Example C71_case : good_externals ext2 /\ is_dictionary ru_unicode dict5 /\ In (u "монета") (w_forms homonym) /\ In (u "монета") (w_forms coin) /\
  good_deps [DExt (u "n"); DProps (Properties [AProp TIME_PAST]); DProps (Properties [AProp CASE_DATIVE])] /\
  (forall f ms g v, base_form ext2 dict5 (u "монета") f -> relevant (w_type (wf_word f)) ms g -> ~ holds (Properties [AProp TIME_PAST]) g v) /\
  (exists f, base_form ext2 dict5 (u "монета") f /\ relevant (w_type (wf_word f)) [five] R_ANIMALITY /\ ~ relevant (w_type (wf_word f)) [hero] R_ANIMALITY) /\
  In (P_WORD_TYPE WT_VERB) (records R_WORD_TYPE) /\
  get_text ru_unicode {| s_id := u "монета"; s_deps := [DProps (Properties [AProp (P_WORD_TYPE WT_VERB)]); DProps (Properties [AProp NUMBER_PLURAL])] |} ext2 dict5 = Ok (u "монеты").
Proof.
  assert (Bd : get_word dict5 (u "монета") = Ok (WordForm coin (Some (key_props [Some NOUN_FORM_NORMAL; Some NUMBER_SINGULAR; Some CASE_NOMINATIVE])) None)) by (vm_compute; reflexivity).
  assert (T : exists f, base_form ext2 dict5 (u "монета") f /\ w_type (wf_word f) = WT_NOUN).
  { eexists. split; [apply base_word; [apply (dmem_false _ str_eqb_ok); vm_compute; reflexivity|exact Bd]|reflexivity]. }
  assert (N : forall f, base_form ext2 dict5 (u "монета") f -> w_type (wf_word f) = WT_NOUN).
  { destruct T as (f & Hf & Et). intros f' Hf'. rewrite <- Et. f_equal. f_equal. pose proof (proj1 ext2_good) as _.
    assert (K : ~ In (u "монета") (dkeys ext2)) by (apply (dmem_false _ str_eqb_ok); vm_compute; reflexivity).
    destruct Hf as [I|A B]; [exfalso; apply K; exact (in_map fst _ _ I)|]. destruct Hf' as [I|A' B']; [exfalso; apply K; exact (in_map fst _ _ I)|]. congruence. }
  split; [apply ext2_good|]. split; [apply dict5_good|]. split; [left; reflexivity|]. split; [left; reflexivity|]. split.
  { intros p [H|[H|[H|[]]]]; [discriminate| |]; injection H as <-; [exact (plain_properties [TIME_PAST])|exact (plain_properties [CASE_DATIVE])]. }
  split.
  { intros f ms g v Hf R Hh. rewrite (N f Hf) in R. destruct Hh as [Hh|[]]. injection Hh as <- _.
    inversion R as [g' H|H|g' H L I|g' H L I]; clear R.
    - cbn in H. destruct H as [H|[H|[H|[]]]]; discriminate.
    - destruct I as [I|[I|[I|[I|[]]]]]; discriminate.
    - destruct I as [I|[I|[I|[I|[]]]]]; discriminate. }
  split.
  { destruct T as (f & Hf & Et). exists f. split; [exact Hf|]. rewrite Et. split.
    - apply rel_noun; [left; vm_compute; reflexivity|left; reflexivity|cbn; tauto].
    - intros R. inversion R as [g' H|H|g' H L I|g' H L I]; subst; [cbn in H; intuition discriminate| |]; inversion H as [? ? X|? ? X]; subst; try (inversion X; fail); vm_compute in X; discriminate. }
  split; [cbn; tauto|]. rewrite (get_text_known _ _ _ _ _ _ Bd). vm_compute. reflexivity.
Qed.
