(** * PropReload: C80, equal objects are interchangeable; what is saved and loaded again works the same *)
From Coq Require Import Permutation Lia.
From Verif Require Import PyBase Relations Restrictions Logic Data Words Transformators Constructors Dictionary Templates PyBaseFacts SpecProps PropsFacts SpecSlots SlotFacts LookupFacts WordFacts SerFacts
  SpecDictionary DictFacts SpecLists SpecAgreement AgreementFacts SpecTemplates SpecSubstitution SubstFacts TemplateFacts PropSlots PropWords PropDictionary PropAgreement PropSyntax PropSubstitution PropSerialization SpecReload.

(** ** what is alike has the same texts *)
Lemma alike_words_refl w : alike_words w w.
Proof. repeat split; auto. Qed.
Lemma alike_words_sym a b : alike_words a b -> alike_words b a.
Proof. intros (A & B & C). split; [congruence|]. split; [congruence|]. intros g v. symmetry. apply C. Qed.
Lemma alike_words_trans a b c : alike_words a b -> alike_words b c -> alike_words a c.
Proof. intros (A & B & C) (A' & B' & C'). split; [congruence|]. split; [congruence|]. intros g v. rewrite (C g v). apply C'. Qed.
Lemma alike_refl f : alike f f.
Proof. split; [apply alike_words_refl|]. split; intros g v; reflexivity. Qed.
Lemma alike_sym a b : alike a b -> alike b a.
Proof. intros (A & B & C). split; [apply alike_words_sym, A|]. split; intros g v; symmetry; [apply B|apply C]. Qed.
Lemma alike_trans a b c : alike a b -> alike b c -> alike a c.
Proof. intros (A & B & C) (A' & B' & C'). split; [exact (alike_words_trans _ _ _ A A')|]. split; intros g v; [rewrite (B g v); apply B'|rewrite (C g v); apply C']. Qed.

Lemma same_eqv p q : props_wf p -> props_wf q -> same_props p q -> eqv p q.
Proof.
  intros Hp Hq H. split; [exact Hp|]. split; [exact Hq|]. intros g. rewrite !pget_spec. rewrite (proj1 (same_props_dget p q Hp Hq) H g). reflexivity.
Qed.
Lemma form_like w w' p q : w_type w = w_type w' -> w_forms w = w_forms w' -> eqv p q -> word__form w p = word__form w' q.
Proof.
  intros T F (_ & _ & H). unfold word__form. rewrite <- T, <- F.
  assert (E : get_raw_key p (schema (w_type w)) = get_raw_key q (schema (w_type w))) by (unfold get_raw_key; apply mapM_ext; intros g; apply H).
  rewrite E. reflexivity.
Qed.
Lemma get_form_like U w w' p q : w_type w = w_type w' -> w_forms w = w_forms w' -> eqv p q -> get_form U w p = get_form U w' q.
Proof.
  intros T F H. unfold get_form. rewrite (form_like w w' p q T F H). unfold is_upper. rewrite (proj2 (proj2 H)). reflexivity.
Qed.
Lemma word_wf w : is_word w -> props_wf (w_props w).
Proof. intros [H _]. apply is_properties_wf, H. Qed.
Lemma merge_eqv p q a b : props_wf p -> props_wf q -> props_wf a -> props_wf b -> same_props p q -> same_props a b ->
  eqv (Properties [AProps p; AProps a]) (Properties [AProps q; AProps b]).
Proof.
  intros Hp Hq Ha Hb H H'.
  assert (W : forall x y, props_wf x -> props_wf y -> wf_args [AProps x; AProps y]) by (intros x y Hx Hy d [[= <-]|[[= <-]|[]]]; assumption).
  split; [apply wf_Properties, W; assumption|]. split; [apply wf_Properties, W; assumption|]. intros g.
  rewrite !pget_spec, !dget_Properties by (apply W; assumption). cbn [args_get arg_get].
  rewrite (proj1 (same_props_dget p q Hp Hq) H g), (proj1 (same_props_dget a b Ha Hb) H' g). reflexivity.
Qed.
Lemma eqv_same p q : eqv p q -> (forall g, dget rel_eqb g p = dget rel_eqb g q) -> same_props p q.
Proof. intros (Hp & Hq & _) H. apply same_props_dget; assumption. Qed.
Lemma normal_form_like w w' : is_word w -> is_word w' -> alike_words w w' -> normal_form w = normal_form w'.
Proof.
  intros Hw Hw' (T & F & P). unfold normal_form, word_form. apply form_like; [exact T|exact F|]. apply word_wf in Hw, Hw'. apply merge_eqv; assumption.
Qed.
Lemma wf_form_like U f f' : is_wordform f -> is_wordform f' -> alike f f' -> wf_form U f = wf_form U f'.
Proof.
  intros Hf Hf' ((T & F & _) & _ & P). destruct (wordform_parts f Hf) as (_ & _ & H & _). destruct (wordform_parts f' Hf') as (_ & _ & H' & _).
  unfold wf_form. apply get_form_like; [exact T|exact F|]. apply same_eqv; [apply is_properties_wf, H|apply is_properties_wf, H'|exact P].
Qed.
(** *** the transformations *)
Lemma preposition_like U w w' p q m m' : is_word w -> is_word w' -> alike_words w w' -> is_wordform m -> is_wordform m' -> alike m m' -> eqv p q ->
  rr eqv (preposition_any U w p m) (preposition_any U w' q m').
Proof.
  intros Hw Hw' A Hm Hm' B H. assert (E := preposition_eqv U w p q m H).
  assert (E' : preposition_any U w q m = preposition_any U w' q m').
  { unfold preposition_any, consonant_preposition_any, vowels_preposition_any, starts_with_consonant_cluster, number_of_syllables, has_fluent_vowel.
    rewrite (normal_form_like w w' Hw Hw' A), (wf_form_like U m m' Hm Hm' B). destruct B as ((_ & F & _) & _). rewrite F. reflexivity. }
  rewrite <- E'. exact E.
Qed.
Lemma transform_like U w w' p q m m' : is_word w -> is_word w' -> alike_words w w' -> is_wordform m -> is_wordform m' -> alike m m' -> eqv p q ->
  rr eqv (transform U w p m) (transform U w' q m').
Proof.
  intros Hw Hw' A Hm Hm' B H. unfold transform. rewrite <- (proj1 A), <- (proj1 (proj1 B)).
  destruct (dget _ _ _) as [[]|]; [apply noun_integer_eqv, H|apply adjective_integer_eqv, H|apply preposition_like; assumption|constructor; exact H].
Qed.
Definition likes (ms ms' : list wordform) : Prop := Forall2 (fun m m' => is_wordform m /\ is_wordform m' /\ alike m m') ms ms'.
Lemma transforms_like U w w' ms ms' : is_word w -> is_word w' -> alike_words w w' -> likes ms ms' -> forall p q, eqv p q ->
  rr eqv (foldM (fun fp m => transform U w fp m) ms p) (foldM (fun fp m => transform U w' fp m) ms' q).
Proof.
  intros Hw Hw' A H. induction H as [|m m' ms ms' (Hm & Hm' & B) _ IH]; intros p q E; cbn [foldM]; [constructor; exact E|].
  apply (rr_bind eqv); [apply transform_like; assumption|exact IH].
Qed.
(** *** externals *)
Lemma external_like ext ext' name : good_externals ext -> good_externals ext' -> alike_externals ext ext' ->
  (exists f f', dget str_eqb name ext = Some f /\ dget str_eqb name ext' = Some f' /\ is_wordform f /\ is_wordform f' /\ alike f f') \/
  (dget str_eqb name ext = None /\ dget str_eqb name ext' = None).
Proof.
  intros [N G] [N' G'] [A B]. destruct (dget str_eqb name ext) as [f|] eqn:E.
  - left. apply (dget_In _ str_eqb_ok) in E. destruct (A name f E) as (f' & I & L). exists f, f'. split; [reflexivity|].
    split; [apply (In_dget _ str_eqb_ok); assumption|]. eauto.
  - right. split; [reflexivity|]. destruct (dget str_eqb name ext') as [f'|] eqn:E'; [|reflexivity].
    apply (dget_In _ str_eqb_ok) in E'. destruct (B name f' E') as (f & I & _). apply (In_dget _ str_eqb_ok) in I; [|exact N]. congruence.
Qed.
Lemma deps_like ext ext' deps deps' : good_externals ext -> good_externals ext' -> alike_externals ext ext' -> good_deps deps -> good_deps deps' -> Forall2 same_dep deps deps' ->
  rr (fun a b => Forall2 same_arg (fst a) (fst b) /\ likes (snd a) (snd b)) (list_properties ext deps) (list_properties ext' deps').
Proof.
  intros He He' Hee. unfold list_properties.
  assert (G : forall acc acc', Forall2 same_arg (fst acc) (fst acc') -> likes (snd acc) (snd acc') -> good_deps deps -> good_deps deps' -> Forall2 same_dep deps deps' ->
    rr (fun a b => Forall2 same_arg (fst a) (fst b) /\ likes (snd a) (snd b)) (foldM (list_properties_step ext) deps acc) (foldM (list_properties_step ext') deps' acc')).
  { revert deps'. induction deps as [|x deps IH]; intros deps' acc acc' Ha Hs G1 G2 H; inversion H as [|? y ? ys Hxy Hr]; subst; [constructor; auto|]. cbn [foldM].
    assert (G1' : good_deps deps) by (intros p Hp; apply G1; right; exact Hp). assert (G2' : good_deps ys) by (intros p Hp; apply G2; right; exact Hp).
    destruct Hxy as [name|p q Hpq]; cbn [list_properties_step].
    - destruct (external_like ext ext' name He He' Hee) as [(f & f' & -> & -> & Hf & Hf' & L)|[-> ->]]; [|constructor].
      cbn [bind]. apply IH; try assumption; cbn [fst snd].
      + apply Forall2_app; [exact Ha|]. constructor; [|constructor].
        assert (Wp : props_wf (wf_props f)) by (apply is_properties_wf, (wordform_parts f Hf)). assert (Wq : props_wf (wf_props f')) by (apply is_properties_wf, (wordform_parts f' Hf')).
        constructor; [exact Wp|exact Wq|]. apply (same_props_dget _ _ Wp Wq), L.
      + apply Forall2_app; [exact Hs|]. constructor; [auto|constructor].
    - cbn [bind]. apply IH; try assumption; cbn [fst snd]. apply Forall2_app; [exact Ha|]. constructor; [|constructor].
      assert (Wp : props_wf p) by (apply is_properties_wf, G1; left; reflexivity). assert (Wq : props_wf q) by (apply is_properties_wf, G2; left; reflexivity).
      constructor; [exact Wp|exact Wq|]. apply (same_props_dget p q Wp Wq), Hpq. }
  intros G1 G2 H. apply G; [constructor|constructor|exact G1|exact G2|exact H].
Qed.
Lemma clone_like p q l l' : props_wf p -> props_wf q -> same_props p q -> Forall2 same_arg l l' -> eqv (clone p l) (clone q l').
Proof.
  intros Hp Hq Hpq H. assert (H' : Forall2 same_arg (AProps p :: l) (AProps q :: l')) by (constructor; [constructor; [exact Hp|exact Hq|apply same_props_dget; assumption]|exact H]).
  destruct (same_arg_wf _ _ H') as [W1 W2]. unfold clone.
  split; [apply wf_Properties, W1|]. split; [apply wf_Properties, W2|]. intros g. rewrite !pget_spec, !dget_Properties by assumption. rewrite (same_args_get g _ _ H'). reflexivity.
Qed.
Lemma base_like U ext ext' d d' id : good_externals ext -> good_externals ext' -> alike_externals ext ext' -> is_dictionary U d -> is_dictionary U d' -> alike_dictionaries d d' ->
  rr (fun f f' => is_wordform f /\ is_wordform f' /\ alike f f') (base_form_of ext d id) (base_form_of ext' d' id).
Proof.
  intros He He' Hee Hd Hd' Hdd. unfold base_form_of.
  destruct (external_like ext ext' id He He' Hee) as [(f & f' & -> & -> & Hf & Hf' & L)|[-> ->]]; [constructor; auto|].
  assert (H := Hdd id). inversion H as [f f' L E E'|e E E']; [|constructor]. constructor.
  split; [apply (dictionary_form U d id f Hd); symmetry; exact E|]. split; [apply (dictionary_form U d' id f' Hd'); symmetry; exact E'|exact L].
Qed.
Lemma get_text_like U a b ext ext' d d' : good_externals ext -> good_externals ext' -> alike_externals ext ext' -> is_dictionary U d -> is_dictionary U d' -> alike_dictionaries d d' ->
  good_deps (s_deps a) -> good_deps (s_deps b) -> same_sub a b -> get_text U a ext d = get_text U b ext' d'.
Proof.
  intros He He' Hee Hd Hd' Hdd Ga Gb [Hid H]. unfold get_text. rewrite <- Hid. apply rr_eq.
  apply (rr_bind (fun f f' => is_wordform f /\ is_wordform f' /\ alike f f')); [apply (base_like U); assumption|]. intros f f' (Hf & Hf' & (L & Lp & _)).
  apply (rr_bind (fun x y => Forall2 same_arg (fst x) (fst y) /\ likes (snd x) (snd y))); [apply deps_like; assumption|]. intros x y [Hx Hy].
  destruct (wordform_parts f Hf) as (Hw & Hp & _). destruct (wordform_parts f' Hf') as (Hw' & Hp' & _).
  apply (rr_bind eqv).
  - apply transforms_like; [exact Hw|exact Hw'|exact L|exact Hy|]. apply clone_like; [apply is_properties_wf, Hp|apply is_properties_wf, Hp'|exact Lp|].
    apply Forall2_app; [exact Hx|]. constructor; [|constructor]. constructor; [apply word_wf, Hw|apply word_wf, Hw'|]. apply same_props_dget; [apply word_wf, Hw|apply word_wf, Hw'|apply L].
  - intros p q Hpq. rewrite (get_form_like U (wf_word f) (wf_word f') p q (proj1 L) (proj1 (proj2 L)) Hpq). destruct (get_form U (wf_word f') q); constructor; reflexivity.
Qed.

(** ** C80 *)
(** what is printed depends on what is equal only: templates with the same text and variables, externals that are alike and dictionaries that
    answer alike give the same text or the same exception, and the same unknown words *)
Theorem C80_interchangeable : forall U t t' ext ext' d d', is_template t -> is_template t' -> same_template t t' ->
  good_externals ext -> good_externals ext' -> alike_externals ext ext' ->
  is_dictionary U d -> is_dictionary U d' -> alike_dictionaries d d' ->
  substitute U t ext d = substitute U t' ext' d' /\ get_undictionaried_words t ext d = get_undictionaried_words t' ext' d'.
Proof.
  intros U t t' ext ext' d d' Ht Ht' [Hx H] He He' Hee Hd Hd' Hdd. unfold substitute, get_undictionaried_words, is_template in *. rewrite <- Hx. split.
  - f_equal. clear Hx. induction H as [|x y l l' Hxy _ IH]; [reflexivity|]. cbn [mapM].
    rewrite (get_text_like U x y ext ext' d d' He He' Hee Hd Hd' Hdd (Ht x (or_introl eq_refl)) (Ht' y (or_introl eq_refl)) Hxy).
    rewrite IH; [reflexivity|intros s Hs; apply Ht; right; exact Hs|intros s Hs; apply Ht'; right; exact Hs].
  - clear Hx Ht Ht'. induction H as [|x y l l' Hxy _ IH]; [reflexivity|]. cbn [flat_map]. rewrite IH, (proj1 Hxy).
    assert (E : dmem str_eqb (s_id y) ext = dmem str_eqb (s_id y) ext').
    { unfold dmem. destruct (external_like ext ext' (s_id y) He He' Hee) as [(f & f' & -> & -> & _)|[-> ->]]; reflexivity. }
    assert (E' : has_word d (s_id y) = has_word d' (s_id y)).
    { assert (G := Hdd (s_id y)). unfold get_word in G. unfold has_word, dmem. destruct (dget str_eqb (s_id y) d), (dget str_eqb (s_id y) d'); try reflexivity; inversion G. }
    rewrite E, E'. reflexivity.
Qed.

(** ** dictionaries of words that are alike *)
Definition entry_form (w : word) (k : key) : wordform := WordForm w (Some (key_props k)) None.
Lemma entry_alike w w' k : is_word w -> is_word w' -> alike_words w w' -> is_wordform (entry_form w k) /\ is_wordform (entry_form w' k) /\ alike (entry_form w k) (entry_form w' k).
Proof.
  intros Hw Hw' A.
  assert (G : forall x, is_word x -> is_wordform (entry_form x k)).
  { intros x Hx. exists x, (Some (key_props k)), None. split; [exact Hx|]. split; [intros q [= <-]; apply is_properties_key|]. split; [discriminate|reflexivity]. }
  split; [apply G, Hw|]. split; [apply G, Hw'|]. split; [exact A|].
  assert (P : same_props (Properties [AProps (key_props k); AProps (w_props w)]) (Properties [AProps (key_props k); AProps (w_props w')])).
  { assert (Hk : props_wf (key_props k)) by (apply is_properties_wf, is_properties_key). apply word_wf in Hw, Hw'.
    assert (W : forall y, props_wf y -> wf_args [AProps (key_props k); AProps y]) by (intros y Hy d [[= <-]|[[= <-]|[]]]; assumption).
    apply same_props_dget; [apply wf_Properties, W, Hw|apply wf_Properties, W, Hw'|]. intros g. rewrite !dget_Properties by (apply W; assumption). cbn [args_get arg_get].
    rewrite (proj1 (same_props_dget _ _ Hw Hw') (proj2 (proj2 A)) g). reflexivity. }
  split; exact P.
Qed.
Lemma all_forms_like w w' l : is_word w -> is_word w' -> alike_words w w' -> all_forms w = Ok l -> exists l', all_forms w' = Ok l' /\ likes l l'.
Proof.
  intros Hw Hw' A E. rewrite (all_forms_eq w Hw) in E. injection E as <-. eexists. split; [apply (all_forms_eq w' Hw')|]. rewrite <- (proj1 A).
  induction (INVERTED_WORDS_CACHES (w_type w)) as [|k ks IH]; [constructor|]. cbn [map]. constructor; [|exact IH]. apply (entry_alike w w' k Hw Hw' A).
Qed.
Lemma registers_like U w w' lw : is_word w -> is_word w' -> alike_words w w' -> registers U w lw -> exists lw', registers U w' lw' /\ likes lw lw'.
Proof.
  intros Hw Hw' A (rest & E & Hok & Hr). destruct (all_forms_like w w' _ Hw Hw' A E) as (l' & E' & L).
  apply Forall2_app_inv_l in L as (lw' & rest' & L & L' & ->). exists lw'. split; [|exact L]. exists rest'. split; [exact E'|]. split.
  - intros f' Hf'. destruct (Forall2_in_r _ _ _ _ L Hf') as (f & Hf & W & W' & B). destruct (Hok f Hf) as (t & Ht). exists t. rewrite <- (wf_form_like U f f' W W' B). exact Ht.
  - destruct Hr as [->|(f & r & e & -> & He)]; inversion L' as [|? f' ? r' (W & W' & B) _]; subst; [left; reflexivity|].
    right. exists f', r', e. split; [reflexivity|]. rewrite <- (wf_form_like U f f' W W' B). exact He.
Qed.
Lemma level_alike f f' : is_wordform f -> is_wordform f' -> alike f f' -> level f f'.
Proof.
  intros H H' ((T & F & _) & P & _). split; [exact T|]. split; [exact F|]. apply same_props_manhattan; [apply (wordform_parts f H)|apply (wordform_parts f' H')|exact P].
Qed.
Lemma preferred_level_both a a' b b' : level a a' -> level b b' -> preferred a b -> preferred a' b'.
Proof. unfold preferred, level. intros (-> & -> & ->) (-> & -> & ->). auto. Qed.
Lemma level_sym a b : level a b -> level b a.
Proof. intros (A & B & C). repeat split; congruence. Qed.
Lemma level_trans a b c : level a b -> level b c -> level a c.
Proof. intros (A & B & C) (A' & B' & C'). repeat split; congruence. Qed.
Lemma first_best_like U t lw lw' f : likes lw lw' -> first_best U t lw f -> exists f', first_best U t lw' f' /\ alike f f'.
Proof.
  intros L (Hf & l1 & l2 & -> & Hm & Hfi). assert (L0 := L). apply Forall2_app_inv_l in L as (l1' & r' & L1 & L2 & ->).
  inversion L2 as [|? f' ? l2' (W & W' & B) L3]; subst. exists f'. split; [|exact B]. split; [rewrite <- (wf_form_like U f f' W W' B); exact Hf|].
  exists l1', l2'. split; [reflexivity|]. split.
  - intros b' Hb Ht P. destruct (Forall2_in_r _ _ _ _ L0 Hb) as (b & Hb' & Wb & Wb' & Bb). apply (Hm b Hb').
    + rewrite (wf_form_like U b b' Wb Wb' Bb). exact Ht.
    + apply (preferred_level_both b' b f' f); [apply level_sym, level_alike; assumption|apply level_sym, level_alike; assumption|exact P].
  - intros b' Hb Ht. destruct (Forall2_in_r _ _ _ _ L1 Hb) as (b & Hb' & Wb & Wb' & Bb).
    apply (preferred_level_both f f' b b'); [apply level_alike; assumption|apply level_alike; assumption|]. apply (Hfi b Hb'). rewrite (wf_form_like U b b' Wb Wb' Bb). exact Ht.
Qed.
Lemma Forall2_in_l {A B} (R : A -> B -> Prop) l1 l2 a : Forall2 R l1 l2 -> In a l1 -> exists b, In b l2 /\ R a b.
Proof. intros H. induction H as [|x y l1 l2 Hxy _ IH]; intros []; [subst; exists y; split; [left; reflexivity|exact Hxy]|]. destruct (IH H) as (b & Hb & R'). exists b. split; [right; exact Hb|exact R']. Qed.
Lemma registered_word U ws l w : registered U ws l -> In w ws -> exists lw, registers U w lw /\ incl lw l.
Proof.
  intros (ls & H & ->) Hw. destruct (Forall2_in_l _ _ _ _ H Hw) as (lw & Hl & Hr). exists lw. split; [exact Hr|]. intros f Hf. apply in_concat. exists lw. auto.
Qed.
(** a candidate of ws has a counterpart among the candidates of ws' when its word has one *)
Lemma counterpart U ws ws' l l' f w' : Forall is_word ws -> Forall is_word ws' -> registered U ws l -> registered U ws' l' -> In f l ->
  In w' ws' -> alike_words (wf_word f) w' -> exists f', In f' l' /\ alike f f' /\ is_wordform f /\ is_wordform f' /\ wf_form U f = wf_form U f'.
Proof.
  intros Hw Hw' Hl Hl' Hin Hww A. destruct (registered_in U ws l f Hw Hl Hin) as (w & lw & Iw & Hr & If & Ew & Wf). subst w.
  rewrite Forall_forall in Hw, Hw'. destruct (registers_like U (wf_word f) w' lw (Hw _ Iw) (Hw' _ Hww) A Hr) as (lw' & Hr' & L).
  destruct (registered_word U ws' l' w' Hl' Hww) as (lw2 & Hr2 & Hi). rewrite (registers_fun U w' lw2 lw' Hr2 Hr') in Hi.
  destruct (Forall2_in_l _ _ _ _ L If) as (f' & If' & W & W' & B). exists f'. split; [apply Hi, If'|]. split; [exact B|]. split; [exact W|]. split; [exact W'|]. apply wf_form_like; assumption.
Qed.
Section Rebuilt.
Variables (U : unicode) (ws ws' : list word).
Hypothesis Hw : Forall is_word ws.
Hypothesis Hw' : Forall is_word ws'.
Hypothesis Hback : forall w', In w' ws' -> exists w, In w ws /\ alike_words w w'.
Hypothesis Hfound : forall t f, get_word (after U ws) t = Ok f -> exists w', In w' ws' /\ alike_words (wf_word f) w'.
Lemma rebuilt_found t f : get_word (after U ws) t = Ok f -> exists f', get_word (after U ws') t = Ok f' /\ level f f'.
Proof.
  intros H. destruct (after_rep U ws Hw) as (l & Hl & _). destruct (after_rep U ws' Hw') as (l' & Hl' & _).
  destruct (C21_first_of_the_best U ws l t f Hw Hl H) as (l1 & l2 & E1 & Ht & Hm & _).
  assert (If : In f l) by (rewrite E1; apply in_app_iff; right; left; reflexivity).
  destruct (Hfound t f H) as (w' & Iw' & A). destruct (counterpart U ws ws' l l' f w' Hw Hw' Hl Hl' If Iw' A) as (f1 & If1 & B1 & W & W1 & Et).
  destruct (get_word (after U ws') t) as [f'|e] eqn:H'.
  2:{ apply C20_unknown_text in H' as [_ H']. rewrite (proj2 (C20_has_word U ws' l' t Hw' Hl')) in H'; [discriminate|]. exists f1. split; [exact If1|congruence]. }
  exists f'. split; [reflexivity|]. destruct (C21_first_of_the_best U ws' l' t f' Hw' Hl' H') as (l1' & l2' & E1' & Ht' & Hm' & _).
  assert (If' : In f' l') by (rewrite E1'; apply in_app_iff; right; left; reflexivity).
  destruct (registered_in U ws' l' f' Hw' Hl' If') as (w2 & lw2 & Iw2 & _ & _ & Ew2 & _). subst w2. destruct (Hback _ Iw2) as (w3 & Iw3 & A3).
  destruct (counterpart U ws' ws l' l f' w3 Hw' Hw Hl' Hl If' Iw3 (alike_words_sym _ _ A3)) as (f2 & If2 & B2 & W' & W2 & Et2).
  assert (L1 := level_alike f f1 W W1 B1). assert (L2 := level_alike f' f2 W' W2 B2).
  destruct (preferred_trichotomy f f') as [Q|[Q|Q]]; [exfalso|exfalso|exact Q].
  - apply (Hm' f1 If1); [congruence|]. apply (preferred_level_both f f1 f' f'); [exact L1|repeat split|exact Q].
  - apply (Hm f2 If2); [congruence|]. apply (preferred_level_both f' f2 f f); [exact L2|repeat split|exact Q].
Qed.
Lemma rebuilt_unknown t e : get_word (after U ws) t = Err e -> get_word (after U ws') t = Err e.
Proof.
  intros H. apply C20_unknown_text in H as [-> H]. apply C20_unknown_text. split; [reflexivity|].
  destruct (has_word (after U ws') t) eqn:H'; [|reflexivity]. rewrite <- H. symmetry.
  destruct (after_rep U ws Hw) as (l & Hl & _). destruct (after_rep U ws' Hw') as (l' & Hl' & _).
  apply (C20_has_word U ws' l' t Hw' Hl') in H' as (f' & If' & Ht'). destruct (registered_in U ws' l' f' Hw' Hl' If') as (w2 & lw2 & Iw2 & _ & _ & Ew2 & _). subst w2.
  destruct (Hback _ Iw2) as (w3 & Iw3 & A3).
  destruct (counterpart U ws' ws l' l f' w3 Hw' Hw Hl' Hl If' Iw3 (alike_words_sym _ _ A3)) as (f2 & If2 & B2 & W' & W2 & Et2).
  apply (C20_has_word U ws l t Hw Hl). exists f2. split; [exact If2|congruence].
Qed.
Lemma rebuilt_alike : no_twins ws -> alike_dictionaries (after U ws) (after U ws').
Proof.
  intros Htw t. destruct (get_word (after U ws) t) as [f|e] eqn:H; [|rewrite (rebuilt_unknown t e H); constructor].
  destruct (rebuilt_found t f H) as (f' & H' & (T & F & _)). rewrite H'. constructor.
  destruct (after_rep U ws Hw) as (l & Hl & _). destruct (after_rep U ws' Hw') as (l' & Hl' & _).
  destruct (C20_get_word U ws l t f Hw Hl H) as (_ & Ht & I1). destruct (C20_get_word U ws' l' t f' Hw' Hl' H') as (_ & Ht' & I2).
  destruct (Hback _ I2) as (w3 & I3 & A3).
  assert (A : alike_words (wf_word f) (wf_word f')).
  { apply (alike_words_trans _ w3); [|exact A3]. destruct A3 as (T3 & F3 & _). split; [congruence|]. split; [congruence|]. apply Htw; [exact I1|exact I3|congruence|congruence]. }
  destruct (C21_first_of_the_best U ws l t f Hw Hl H) as (l1 & l2 & E1 & _ & Hm & Hfi).
  destruct (C21_first_of_the_best U ws' l' t f' Hw' Hl' H') as (l1' & l2' & E1' & _ & Hm' & Hfi').
  destruct (best_of_word U ws l t f Hw Hl) as (lw & R1 & B1); [split; [exact Ht|]; exists l1, l2; auto|].
  destruct (best_of_word U ws' l' t f' Hw' Hl') as (lw' & R2 & B2); [split; [exact Ht'|]; exists l1', l2'; auto|].
  rewrite Forall_forall in Hw, Hw'.
  destruct (registers_like U _ _ lw (Hw _ I1) (Hw' _ I2) A R1) as (lw2 & R3 & L). rewrite (registers_fun U _ lw' lw2 R2 R3) in B2.
  destruct (first_best_like U t lw lw2 f L B1) as (f2 & B3 & Al). rewrite (first_best_fun U t lw2 f' f2 B2 B3). exact Al.
Qed.
End Rebuilt.
Lemma add_word_like U d d' w w' : is_word w -> is_word w' -> alike_words w w' -> snd (add_word U d w) = snd (add_word U d' w').
Proof.
  intros Hw Hw' A. unfold add_word. rewrite <- (proj1 (proj2 A)). generalize (seq 0 (length (w_forms w))). intros is. revert d d'.
  induction is as [|i is IH]; intros d d'; [reflexivity|]. cbn [add_forms]. rewrite <- (proj1 A).
  destruct (py_nth (INVERTED_WORDS_CACHES (w_type w)) i) as [k|e]; [|reflexivity]. cbn [bind].
  destruct (entry_alike w w' k Hw Hw' A) as (W & W' & B). unfold entry_form in *. assert (E := wf_form_like U _ _ W W' B).
  assert (H1 := add_form_result U d (WordForm w (Some (key_props k)) None)). assert (H2 := add_form_result U d' (WordForm w' (Some (key_props k)) None)).
  destruct (add_form U d _), (add_form U d' _).
  - apply IH.
  - destruct H1. congruence.
  - destruct H2. congruence.
  - cbn [snd]. congruence.
Qed.
(** the same words in the same order *)
Lemma registered_like U ws ws' l : Forall is_word ws -> Forall is_word ws' -> Forall2 alike_words ws ws' -> registered U ws l -> exists l', registered U ws' l' /\ likes l l'.
Proof.
  intros Hw Hw' H (ls & Hl & ->). revert ls Hl Hw Hw'. induction H as [|w w' ws ws' A _ IH]; intros ls Hl Hw Hw'; inversion Hl as [|? lw ? ls1 Hr Hl1]; subst.
  - exists []. split; [exists []; split; [constructor|reflexivity]|constructor].
  - inversion Hw; inversion Hw'; subst. destruct (IH ls1 Hl1) as (l' & (ls' & Hl' & ->) & L); [assumption|assumption|].
    destruct (registers_like U w w' lw) as (lw' & Hr' & L'); try assumption. exists (concat (lw' :: ls')). split; [exists (lw' :: ls'); split; [constructor; assumption|reflexivity]|].
    cbn [concat]. apply Forall2_app; assumption.
Qed.
Lemma in_order_alike U ws ws' : Forall is_word ws -> Forall is_word ws' -> Forall2 alike_words ws ws' -> alike_dictionaries (after U ws) (after U ws').
Proof.
  intros Hw Hw' H t. destruct (after_rep U ws Hw) as (l & Hl & _). destruct (registered_like U ws ws' l Hw Hw' H Hl) as (l' & Hl' & L).
  destruct (get_word (after U ws) t) as [f|e] eqn:E.
  - destruct (C21_first_of_the_best U ws l t f Hw Hl E) as (l1 & l2 & E1 & Ht & Hm & Hfi).
    destruct (first_best_like U t l l' f L) as (f' & B & Al); [split; [exact Ht|]; exists l1, l2; auto|].
    destruct (get_word (after U ws') t) as [f2|e] eqn:E'.
    + constructor. destruct (C21_first_of_the_best U ws' l' t f2 Hw' Hl' E') as (m1 & m2 & E2 & Ht2 & Hm2 & Hfi2).
      rewrite (first_best_fun U t l' f2 f'); [exact Al|split; [exact Ht2|]; exists m1, m2; auto|exact B].
    + exfalso. apply C20_unknown_text in E' as [_ E']. destruct B as (Ht' & m1 & m2 & E2 & _).
      rewrite (proj2 (C20_has_word U ws' l' t Hw' Hl')) in E'; [discriminate|]. exists f'. split; [rewrite E2; apply in_app_iff; right; left; reflexivity|exact Ht'].
  - apply C20_unknown_text in E as [-> E].
    assert (E' : has_word (after U ws') t = false).
    { destruct (has_word (after U ws') t) eqn:E'; [|reflexivity]. rewrite <- E. symmetry. apply (C20_has_word U ws' l' t Hw' Hl') in E' as (f' & I & Ht).
      destruct (Forall2_in_r _ _ _ _ L I) as (f & If & W & W' & B). apply (C20_has_word U ws l t Hw Hl). exists f. split; [exact If|]. rewrite (wf_form_like U f f' W W' B). exact Ht. }
    rewrite (proj2 (C20_unknown_text (after U ws') t (NoWordsFoundError t)) (conj eq_refl E')). constructor.
Qed.

(** ** saving and loading *)
Theorem C80_word : forall w, is_word w -> (exists w', reloaded_word w w') /\ forall w', reloaded_word w w' -> is_word w' /\ alike_words w w'.
Proof.
  intros w Hw. destruct (C16_word_roundtrip w Hw) as (d & Ed & (w0 & E0 & _) & H). split.
  - exists w0, d, (wd_props d). split; [exact Ed|]. split; [apply json_trip_refl|]. destruct d; exact E0.
  - intros w' (d' & ps & Ed' & Ht & E'). rewrite Ed in Ed'. injection Ed' as <-. destruct (H ps Ht) as (w2 & E2 & Hw2 & _ & A & B & C). rewrite E' in E2. injection E2 as <-.
    split; [exact Hw2|]. apply alike_words_sym. repeat split; [exact A|exact B|apply C|apply C].
Qed.
Theorem C80_template : forall t, is_template t -> (exists t', reloaded_template t t') /\ forall t', reloaded_template t t' -> is_template t' /\ same_template t t'.
Proof.
  intros t Ht. destruct (C32_roundtrip t Ht) as (d & Ed & H). split.
  - destruct (H d (data_trip_refl d)) as (t' & E & _). exists t', d, d. split; [exact Ed|]. split; [apply data_trip_refl|exact E].
  - intros t' (d1 & d' & Ed1 & Tr & E). rewrite Ed in Ed1. injection Ed1 as <-. destruct (H d' Tr) as (t2 & E2 & G & [S1 S2] & _). rewrite E in E2. injection E2 as <-.
    split; [exact G|]. split; [symmetry; exact S1|]. clear -S2. induction S2 as [|a b l l' [Hi Hd] _ IH]; constructor; [|exact IH]. split; [symmetry; exact Hi|].
    clear -Hd. induction Hd as [|x y l l' Hxy _ IH]; constructor; [|exact IH]. destruct Hxy as [n|p q Hpq]; constructor. intros g v. symmetry. apply Hpq.
Qed.
Lemma reloaded_words ws ws' : Forall is_word ws -> Forall2 reloaded_word ws ws' -> Forall is_word ws' /\ Forall2 alike_words ws ws'.
Proof.
  intros Hw H. induction H as [|w w' ws ws' Hr _ IH]; [split; constructor|]. inversion Hw as [|? ? H1 H2]; subst. destruct (IH H2) as [G1 G2].
  destruct (C80_word w H1) as [_ G]. destruct (G w' Hr). split; constructor; assumption.
Qed.
(** the list of words that a dictionary was made of: saved, loaded and added in the same order, the dictionary answers alike *)
Theorem C80_same_list : forall U ws ws', Forall is_word ws -> Forall2 reloaded_word ws ws' ->
  alike_dictionaries (after U ws) (after U ws') /\
  (forall d, Dictionary U ws = Ok d -> exists d', Dictionary U ws' = Ok d' /\ alike_dictionaries d d').
Proof.
  intros U ws ws' Hw H. destruct (reloaded_words ws ws' Hw H) as [Hw' A]. assert (G := in_order_alike U ws ws' Hw Hw' A). split; [exact G|].
  intros d Hd. apply Dictionary_ok in Hd as [-> Hok]. exists (after U ws'). split; [|exact G]. apply Dictionary_ok. split; [reflexivity|].
  intros w' Iw'. destruct (Forall2_in_r _ _ _ _ A Iw') as (w & Iw & Aw). rewrite Forall_forall in Hw, Hw'. rewrite <- (add_word_like U [] [] w w' (Hw _ Iw) (Hw' _ Iw') Aw). apply Hok, Iw.
Qed.
(** the words that get_words gives, in any order: the loaded dictionary recognises the same texts as equally good candidates; and it answers
    alike unless two of the words had the same type and forms and different properties *)
Theorem C80_get_words : forall U ws saved ws', Forall is_word ws -> Permutation saved (get_words (after U ws)) -> Forall2 reloaded_word saved ws' ->
  (forall t, has_word (after U ws') t = has_word (after U ws) t) /\
  (forall t f, get_word (after U ws) t = Ok f -> exists f', get_word (after U ws') t = Ok f' /\ level f f') /\
  (no_twins ws -> alike_dictionaries (after U ws) (after U ws')) /\
  (forall d, Dictionary U ws = Ok d -> exists d', Dictionary U ws' = Ok d' /\ d' = after U ws').
Proof.
  intros U ws saved ws' Hw P H. destruct (C20_get_words U ws Hw) as (K1 & K2 & _).
  assert (Hs : forall w, In w saved -> In w ws) by (intros w I; apply K1, (Permutation_in w P I)).
  assert (Hsw : Forall is_word saved) by (rewrite Forall_forall in *; intros w I; apply Hw, Hs, I).
  destruct (reloaded_words saved ws' Hsw H) as [Hw' A].
  assert (Hback : forall w', In w' ws' -> exists w, In w ws /\ alike_words w w').
  { intros w' I. destruct (Forall2_in_r _ _ _ _ A I) as (w & Iw & Aw). exists w. split; [apply Hs, Iw|exact Aw]. }
  assert (Hfound : forall t f, get_word (after U ws) t = Ok f -> exists w', In w' ws' /\ alike_words (wf_word f) w').
  { intros t f E. destruct (K2 t f E) as (w & Iw & S). apply (Permutation_in w (Permutation_sym P)) in Iw. destruct (Forall2_in_l _ _ _ _ A Iw) as (w' & Iw' & Aw).
    exists w'. split; [exact Iw'|]. apply (alike_words_trans _ w); [apply alike_words_sym; exact S|exact Aw]. }
  split.
  { intros t. destruct (has_word (after U ws) t) eqn:E.
    - destruct (get_word (after U ws) t) as [f|e] eqn:G; [|apply C20_unknown_text in G as [_ G]; congruence].
      destruct (rebuilt_found U ws ws' Hw Hw' Hback Hfound t f G) as (f' & G' & _). destruct (has_word (after U ws') t) eqn:E'; [reflexivity|].
      rewrite (proj2 (C20_unknown_text (after U ws') t (NoWordsFoundError t)) (conj eq_refl E')) in G'. discriminate.
    - assert (G := proj2 (C20_unknown_text (after U ws) t (NoWordsFoundError t)) (conj eq_refl E)).
      apply (rebuilt_unknown U ws ws' Hw Hw' Hback) in G. apply C20_unknown_text in G as [_ G]. exact G. }
  split; [exact (rebuilt_found U ws ws' Hw Hw' Hback Hfound)|]. split; [exact (rebuilt_alike U ws ws' Hw Hw' Hback Hfound)|].
  intros d Hd. apply Dictionary_ok in Hd as [-> Hok]. exists (after U ws'). split; [|reflexivity]. apply Dictionary_ok. split; [reflexivity|].
  intros w' Iw'. destruct (Hback w' Iw') as (w & Iw & Aw). rewrite Forall_forall in Hw, Hw'. rewrite <- (add_word_like U [] [] w w' (Hw _ Iw) (Hw' _ Iw') Aw). apply Hok, Iw.
Qed.
Lemma after_dictionary U ws : Forall is_word ws -> is_dictionary U (after U ws).
Proof.
  induction ws as [|w ws IH] using rev_ind; intros H; [constructor|]. apply Forall_app in H as [H1 H2]. inversion H2; subst.
  unfold after. rewrite fold_left_app. cbn [fold_left]. apply dictionary_add; [apply IH, H1|assumption].
Qed.
(** all together: everything saved and loaded, the same texts are printed *)
Theorem C80_reload : forall U ws saved ws' t t' ext ext', Forall is_word ws -> no_twins ws ->
  Permutation saved (get_words (after U ws)) -> Forall2 reloaded_word saved ws' -> is_template t -> reloaded_template t t' ->
  good_externals ext -> good_externals ext' -> alike_externals ext ext' ->
  substitute U t ext (after U ws) = substitute U t' ext' (after U ws') /\
  get_undictionaried_words t ext (after U ws) = get_undictionaried_words t' ext' (after U ws').
Proof.
  intros U ws saved ws' t t' ext ext' Hw Htw P H Ht Htt He He' Hee. destruct (C80_template t Ht) as [_ G]. destruct (G t' Htt) as [Ht' S].
  destruct (C80_get_words U ws saved ws' Hw P H) as (_ & _ & A & _).
  assert (Hw' : Forall is_word ws').
  { destruct (C20_get_words U ws Hw) as (K1 & _). apply (reloaded_words saved ws'); [|exact H]. rewrite Forall_forall in *. intros w I. apply Hw, K1, (Permutation_in w P I). }
  apply C80_interchangeable; try assumption; [apply after_dictionary, Hw|apply after_dictionary, Hw'|apply A, Htw].
Qed.
(** FINDING: words with the same type and forms and different properties: the words of get_words are a set, and with another order the loaded
    dictionary prints another text *)
Definition plural_coin : word := {| w_type := WT_NOUN; w_forms := w_forms coin; w_props := Properties [AProp ANIMALITY_INANIMATE; AProp GENDER_FEMININE; AProp NUMBER_PLURAL] |}.
Lemma plural_coin_word : is_word plural_coin.
Proof. apply is_word_iff; split; [apply Properties_ok; intros d H; simpl in H; repeat (destruct H as [[=]|H]); destruct H|vm_compute; reflexivity]. Qed.
Theorem C80_order_of_twins_refuted : exists ws saved ws' t, Forall is_word ws /\ Permutation saved (get_words (after ru_unicode ws)) /\ Forall2 reloaded_word saved ws' /\
  parse_template ru_unicode new_template (u "[монетам|ед]") [] = (t, Ok tt) /\
  substitute ru_unicode t [] (after ru_unicode ws) = Ok (u "монетам") /\ substitute ru_unicode t [] (after ru_unicode ws') = Ok (u "монете").
Proof.
  exists [plural_coin; coin], [coin; plural_coin], [coin; plural_coin]. eexists. split; [constructor; [apply plural_coin_word|constructor; [apply coin_is_word|constructor]]|].
  split; [replace (get_words (after ru_unicode [plural_coin; coin])) with [plural_coin; coin] by (vm_compute; reflexivity); apply perm_swap|].
  split. { constructor; [|constructor; [|constructor]]; eexists; eexists; (split; [vm_compute; reflexivity|]); (split; [apply json_trip_refl|vm_compute; reflexivity]). }
  split; [vm_compute; reflexivity|]. split; vm_compute; reflexivity.
Qed.
(** FINDING: == on word forms does not look at the values given for the form: equal externals can print different texts *)
Theorem C80_equal_externals_refuted : exists f f' t ws, is_wordform f /\ is_wordform f' /\ wordform_eqb f f' = true /\ Forall is_word ws /\
  parse_template ru_unicode new_template (u "[в|x]") [(u "x", f)] = (t, Ok tt) /\
  substitute ru_unicode t [(u "x", f)] (after ru_unicode ws) = Ok (u "в") /\ substitute ru_unicode t [(u "x", f')] (after ru_unicode ws) = Ok (u "во").
Proof.
  assert (Hl : is_word lion) by apply C55_case.
  exists (WordForm lion None None), (WordForm lion None (Some (Properties [AProp CASE_PREPOSITIONAL]))). eexists. exists [into].
  split; [exists lion, None, None; repeat split; try discriminate; apply Hl|].
  split; [exists lion, None, (Some (Properties [AProp CASE_PREPOSITIONAL])); split; [exact Hl|]; split; [discriminate|]; split; [|reflexivity]; intros q [= <-]; apply Properties_ok; intros d [[=]|[]]|].
  split; [vm_compute; reflexivity|]. split; [constructor; [|constructor]; apply is_word_iff; split; [apply wf_is_properties, wf_nil|vm_compute; reflexivity]|].
  split; [vm_compute; reflexivity|]. split; vm_compute; reflexivity.
Qed.
(** two words saved, loaded in the other order and with the properties in another order; a template and an external alike *)
Definition coin' : word := {| w_type := WT_NOUN; w_forms := w_forms coin; w_props := rev (w_props coin) |}.
Definition hero' : wordform := WordForm coin' (Some (Properties [AProp NUMBER_PLURAL; AProp CASE_DATIVE])) None.
Example C80_case : Forall is_word [coin; into] /\ no_twins [coin; into] /\ Permutation [into; coin] (get_words (after ru_unicode [coin; into])) /\
  Forall2 reloaded_word [into; coin] [into; coin'] /\ coin' <> coin /\ (exists t', reloaded_template tmpl t' /\ t' <> tmpl) /\ alike hero hero' /\ hero <> hero' /\
  alike_externals [(u "n", five); (u "hero", hero)] [(u "hero", hero'); (u "n", five)].
Proof.
  split; [constructor; [apply coin_is_word|constructor; [|constructor]]; apply is_word_iff; split; [apply wf_is_properties, wf_nil|vm_compute; reflexivity]|].
  split. { intros w w' [<-|[<-|[]]] [<-|[<-|[]]] T _; try discriminate T; intros g v; reflexivity. }
  split; [replace (get_words (after ru_unicode [coin; into])) with [coin; into] by (vm_compute; reflexivity); apply perm_swap|].
  split. { constructor; [|constructor; [|constructor]].
    - eexists. eexists. split; [vm_compute; reflexivity|]. split; [apply json_trip_refl|vm_compute; reflexivity].
    - eexists. exists (rev (match serialize_word coin with Ok d => wd_props d | Err _ => [] end)). split; [vm_compute; reflexivity|].
      split; [|vm_compute; reflexivity]. eexists. split; [vm_compute; apply perm_swap|].
      vm_compute. constructor; [|constructor; [|constructor]]; (split; [left; reflexivity|reflexivity]). }
  split; [vm_compute; discriminate|]. split.
  { destruct C32_case as (_ & _ & d & t' & E & Tr & E' & N & _). exists t'. split; [exists d, (tripped d); auto|exact N]. }
  assert (S : forall a b : props, Permutation a b -> same_props a b) by (intros a b P g v; unfold holds; split; apply Permutation_in; [exact P|apply Permutation_sym, P]).
  assert (A : alike hero hero').
  { split; [split; [reflexivity|]; split; [reflexivity|]; apply S; apply (Permutation_rev (w_props coin))|]. split; apply S; vm_compute.
    - apply NoDup_Permutation; [repeat constructor; simpl; intuition discriminate|repeat constructor; simpl; intuition discriminate|]. intros x. simpl. tauto.
    - apply NoDup_Permutation; [repeat constructor; simpl; intuition discriminate|repeat constructor; simpl; intuition discriminate|]. intros x. simpl. tauto. }
  split; [exact A|]. split; [vm_compute; discriminate|]. split.
  - intros name f [[= <- <-]|[[= <- <-]|[]]]; [exists five; split; [right; left; reflexivity|apply alike_refl]|exists hero'; split; [left; reflexivity|exact A]].
  - intros name f [[= <- <-]|[[= <- <-]|[]]]; [exists hero; split; [right; left; reflexivity|exact A]|exists five; split; [left; reflexivity|apply alike_refl]].
Qed.
