(** * SubstFacts: what get_text computes *)
From Coq Require Import Lia.
From Verif Require Import PyBase Relations Restrictions Logic Data Words Transformators Dictionary Templates PyBaseFacts SpecProps PropsFacts SpecSlots SlotFacts LookupFacts WordFacts
  SpecDictionary DictFacts Concurrent SpecConcurrent ConcurrentFacts SpecAgreement AgreementFacts SpecSubstitution PropSlots PropWords PropDictionary PropAgreement.

Lemma Forall2_impl' {A B} (R S : A -> B -> Prop) l l' : (forall a b, R a b -> S a b) -> Forall2 R l l' -> Forall2 S l l'.
Proof. intros H. induction 1; constructor; auto. Qed.

Lemma is_dictionary_after U ws : Forall is_word ws -> is_dictionary U (after U ws).
Proof.
  induction ws as [|w ws IH] using rev_ind; intros H; [constructor|]. apply Forall_app in H as [H1 H2]. unfold after. rewrite fold_left_app. cbn [fold_left].
  apply dictionary_add; [apply IH, H1|inversion H2; assumption].
Qed.
Lemma sequential_is_dictionary U d : is_sequential_dictionary U d -> is_dictionary U d.
Proof. intros (ws & H & ->). apply is_dictionary_after, H. Qed.
(** the dictionary only holds word forms *)
Definition entry_ok (U : unicode) (t : str) (f : wordform) : Prop :=
  exists w i k, is_word w /\ slot (w_type w) i k /\ f = slot_form w k /\ wf_form U f = Ok t.
Definition entries_ok (U : unicode) (d : dictionary) : Prop := forall t f, dget str_eqb t d = Some f -> entry_ok U t f.
Lemma entries_dset U d t f : entries_ok U d -> entry_ok U t f -> entries_ok U (dset str_eqb t f d).
Proof.
  intros H He t' f' E. rewrite (dget_dset _ str_eqb_ok) in E. destruct (str_eqb t t') eqn:Et; [|apply H, E]. apply str_eqb_ok in Et. subst t'. injection E as <-. exact He.
Qed.
Lemma entries_add U w : is_word w -> forall l d, entries_ok U d -> entries_ok U (fst (add_forms U d w l)).
Proof.
  intros Hw. induction l as [|i l IH]; intros d H; [exact H|]. cbn [add_forms]. unfold py_nth. destruct (nth_error (INVERTED_WORDS_CACHES (w_type w)) i) as [k|] eqn:Ek; [|exact H].
  cbn [bind]. unfold add_form. fold (slot_form w k). destruct (wf_form U (slot_form w k)) as [t|e] eqn:Et; [|exact H]. cbn [bind].
  assert (E : entry_ok U t (slot_form w k)) by (exists w, i, k; auto).
  destruct (dget str_eqb t d); [destruct (replaces _ _)|]; apply IH; auto using entries_dset.
Qed.
Lemma is_dictionary_entries U d : is_dictionary U d -> entries_ok U d.
Proof.
  induction 1 as [|d w _ IH Hw|d ws schedule _ IH Hw]; [intros t f [=]|apply entries_add; assumption|].
  intros t f E. destruct (starts ws Hw) as (ls & H1 & H2). unfold adding, aw_run in E. rewrite H2 in E. destruct (aw_inv_run U d ls schedule) as [dns I].
  destruct (ai_sound _ _ _ _ _ I t f E) as [H|(Hf & i & dn & Hi & Hin)]; [apply IH, H|].
  destruct (nth_error ls i) as [l|] eqn:El; [|apply nth_error_None in El; rewrite <- (ai_len' _ _ _ _ _ I) in El; apply nth_error_None in El; congruence].
  destruct (Forall2_nth' _ _ _ _ _ H1 El) as (w & Ew & Haf).
  destruct (nth_error (snd (run_threads (aw_step U) (d, map AW_next ls) schedule)) i) as [pc|] eqn:Ep.
  2: { apply nth_error_None in Ep. rewrite (ai_len _ _ _ _ _ I) in Ep. apply nth_error_None in Ep. congruence. }
  destruct (ai_local _ _ _ _ _ I i l dn pc El Hi Ep) as [_ B].
  assert (X : exists rest, l = dn ++ rest) by (destruct pc; [eexists; exact B|destruct B as [B _]; eexists; exact B|destruct B as [B _]; eexists; exact B|destruct B as [B _]; eexists; exact B|destruct B as (rest & B & _); exists rest; exact B]).
  destruct X as [rest ->]. rewrite Forall_forall in Hw. specialize (Hw w (nth_error_In _ _ Ew)). rewrite (all_forms_eq w Hw) in Haf. injection Haf as Haf.
  assert (Hin' : In f (dn ++ rest)) by (apply in_app_iff; left; exact Hin). rewrite <- Haf in Hin'. apply in_map_iff in Hin' as (k & <- & Hk). apply In_nth_error in Hk as [n Hn].
  exists w, n, k. auto.
Qed.
Lemma dictionary_form U d id f : is_dictionary U d -> get_word d id = Ok f ->
  is_wordform f /\ wf_form U f = Ok id /\ (exists i k, slot (w_type (wf_word f)) i k /\ f = WordForm (wf_word f) (Some (key_props k)) None).
Proof.
  intros Hd H. unfold get_word in H. destruct (dget str_eqb id d) as [g|] eqn:E; [|discriminate]. injection H as ->.
  destruct (is_dictionary_entries U d Hd id f E) as (w & i & k & Hw & Hs & -> & Ht). split; [|split; [exact Ht|exists i, k; split; [exact Hs|reflexivity]]].
  exists w, (Some (key_props k)), None. repeat split; try apply Hw; try discriminate. intros q [= <-]. apply is_properties_key.
Qed.
Lemma base_form_good U ext d id f : good_externals ext -> is_dictionary U d -> base_form ext d id f -> is_wordform f /\ base_form_of ext d id = Ok f.
Proof.
  intros [Hn He] Hd [H|Hni H].
  - split; [exact (He _ _ H)|]. unfold base_form_of. rewrite (In_dget _ str_eqb_ok _ _ _ Hn H). reflexivity.
  - split; [apply (dictionary_form U d id f Hd H)|]. unfold base_form_of. apply (dget_None _ str_eqb_ok) in Hni. rewrite Hni. exact H.
Qed.
Lemma base_form_cases ext d id : good_externals ext -> (exists f, base_form ext d id f) \/
  (~ In id (dkeys ext) /\ has_word d id = false /\ base_form_of ext d id = Err (NoWordsFoundError id)).
Proof.
  intros [Hn _]. unfold base_form_of. destruct (dget str_eqb id ext) as [f|] eqn:E.
  - left. exists f. apply base_external. apply (dget_In _ str_eqb_ok), E.
  - apply (dget_None _ str_eqb_ok) in E. destruct (get_word d id) as [f|e] eqn:G.
    + left. exists f. apply base_word; assumption.
    + right. apply C20_unknown_text in G as [-> G]. auto.
Qed.

Lemma list_properties_acc ext deps : forall a b, foldM (list_properties_step ext) deps (a, b) =
  match foldM (list_properties_step ext) deps ([], []) with Ok pe => Ok (a ++ fst pe, b ++ snd pe) | Err e => Err e end.
Proof.
  induction deps as [|dep deps IH]; intros a b; cbn [foldM]; [cbn [fst snd]; rewrite !app_nil_r; reflexivity|].
  destruct dep as [name|p]; cbn [list_properties_step fst snd app].
  - destruct (dget str_eqb name ext) as [f|]; [|reflexivity]. cbn [bind]. rewrite (IH (a ++ _)), (IH [_]). destruct (foldM _ deps _) as [[x y]|]; cbn [fst snd]; rewrite <- ?app_assoc; reflexivity.
  - cbn [bind]. rewrite (IH (a ++ _)), (IH [_]). destruct (foldM _ deps _) as [[x y]|]; cbn [fst snd]; rewrite <- ?app_assoc; reflexivity.
Qed.
Lemma list_properties_given ext deps ps ms : NoDup (dkeys ext) -> given ext deps ps ms -> list_properties ext deps = Ok (map AProps ps, ms).
Proof.
  intros Hn. unfold list_properties. induction 1 as [|name f deps ps ms Hf _ IH|p deps ps ms _ IH]; [reflexivity|..]; cbn [foldM list_properties_step fst snd app].
  - rewrite (In_dget _ str_eqb_ok _ _ _ Hn Hf). cbn [bind]. rewrite list_properties_acc, IH. reflexivity.
  - cbn [bind]. rewrite list_properties_acc, IH. reflexivity.
Qed.
Lemma given_total ext deps : (forall name, In (DExt name) deps -> In name (dkeys ext)) -> exists ps ms, given ext deps ps ms.
Proof.
  induction deps as [|dep deps IH]; intros H; [exists [], []; constructor|]. destruct IH as (ps & ms & G); [intros n Hn; apply H; right; exact Hn|].
  destruct dep as [name|p].
  - specialize (H name (or_introl eq_refl)). apply in_map_iff in H as ([n f] & E & Hf). cbn in E. subst n. exists (wf_props f :: ps), (f :: ms). constructor; assumption.
  - exists (p :: ps), ms. constructor; assumption.
Qed.
Lemma list_properties_missing ext deps : (exists ps ms, given ext deps ps ms) \/ (exists name, In (DExt name) deps /\ ~ In name (dkeys ext) /\ list_properties ext deps = Err (ExternalDependecyNotFoundError name)).
Proof.
  induction deps as [|dep deps IH]; [left; exists [], []; constructor|]. unfold list_properties. cbn [foldM]. destruct dep as [name|p]; cbn [list_properties_step fst snd app].
  - destruct (dget str_eqb name ext) as [f|] eqn:E.
    + apply (dget_In _ str_eqb_ok) in E. destruct IH as [(ps & ms & G)|(n & Hin & Hn & G)].
      * left. exists (wf_props f :: ps), (f :: ms). constructor; assumption.
      * right. exists n. split; [right; exact Hin|]. split; [exact Hn|]. cbn [bind]. rewrite list_properties_acc. unfold list_properties in G. rewrite G. reflexivity.
    + right. exists name. split; [left; reflexivity|]. split; [apply (dget_None _ str_eqb_ok), E|]. reflexivity.
  - destruct IH as [(ps & ms & G)|(n & Hin & Hn & G)].
    + left. exists (p :: ps), ms. constructor; assumption.
    + right. exists n. split; [right; exact Hin|]. split; [exact Hn|]. cbn [bind]. rewrite list_properties_acc. unfold list_properties in G. rewrite G. reflexivity.
Qed.
Lemma given_good ext deps ps ms : good_externals ext -> good_deps deps -> given ext deps ps ms -> Forall is_properties ps /\ Forall is_wordform ms /\ incl (map (@id wordform) ms) (map snd ext).
Proof.
  intros [_ He] Hd. induction 1 as [|name f deps ps ms Hf _ IH|p deps ps ms _ IH].
  - split; [constructor|]. split; [constructor|]. intros x [].
  - destruct IH as (A & B & C); [intros p Hp; apply Hd; right; exact Hp|]. assert (W := He _ _ Hf). split; [constructor; [apply (wordform_parts f W)|exact A]|].
    split; [constructor; assumption|]. intros x [<-|Hx]; [unfold id; apply in_map_iff; exists (name, f); auto|apply C, Hx].
  - destruct IH as (A & B & C); [intros q Hq; apply Hd; right; exact Hq|]. split; [constructor; [apply Hd; left; reflexivity|exact A]|]. auto.
Qed.

(** the properties before agreement *)
Definition merged (f : wordform) (ps : list props) : props := Properties (rev (map AProps (layers f ps))).
Lemma merged_eq f ps : merged f ps = clone (wf_props f) (map AProps ps ++ [AProps (w_props (wf_word f))]).
Proof.
  unfold merged, clone, layers. rewrite <- map_rev. cbn [rev]. rewrite rev_app_distr, rev_involutive. cbn [rev app map]. rewrite map_app. reflexivity.
Qed.
Lemma layers_wf f ps : is_wordform f -> Forall is_properties ps -> Forall props_wf (layers f ps).
Proof.
  intros Hf Hp. destruct (wordform_parts f Hf) as (Hw & Hq & _). unfold layers. constructor; [apply is_properties_wf, Hw|]. apply Forall_app. split; [|constructor; [apply is_properties_wf, Hq|constructor]].
  apply Forall_rev. eapply Forall_impl; [|exact Hp]. exact is_properties_wf.
Qed.
Lemma merged_good f ps : is_wordform f -> Forall is_properties ps -> is_properties (merged f ps).
Proof.
  intros Hf Hp. assert (H := layers_wf f ps Hf Hp). apply Properties_ok. intros d Hd. apply in_rev in Hd. apply in_map_iff in Hd as (x & [= <-] & Hx).
  rewrite Forall_forall in H. apply wf_is_properties, H, Hx.
Qed.
Lemma merged_pget f ps g o : is_wordform f -> Forall is_properties ps -> (value_from (layers f ps) g o <-> pget (merged f ps) g = Ok o).
Proof. intros Hf Hp. apply value_from_Properties, layers_wf; assumption. Qed.

Lemma get_text_eq U s ext d f ps ms : good_externals ext -> is_dictionary U d -> base_form ext d (s_id s) f -> given ext (s_deps s) ps ms ->
  get_text U s ext d = (q <- foldM (fun fp m => transform U (wf_word f) fp m) ms (merged f ps) ;; get_form U (wf_word f) q).
Proof.
  intros He Hd Hf Hg. unfold get_text. destruct (base_form_good U ext d _ f He Hd Hf) as [_ E]. rewrite E. cbn [bind].
  rewrite (list_properties_given ext _ _ _ (proj1 He) Hg). cbn [bind fst snd]. rewrite merged_eq. reflexivity.
Qed.
Lemma fold_quiet U w ms : forall p, (forall m q, In m ms -> transform U w q m = Ok q) -> foldM (fun fp m => transform U w fp m) ms p = Ok p.
Proof.
  induction ms as [|m ms IH]; intros p H; [reflexivity|]. cbn [foldM]. rewrite (H m p (or_introl eq_refl)). cbn [bind]. apply IH. intros m' q Hm. apply H. right. exact Hm.
Qed.
Lemma fold_one U w ms m p : (forall m' q, ~ is_integer m' -> transform U w q m' = Ok q) -> counted_by ms m -> foldM (fun fp m => transform U w fp m) ms p = transform U w p m.
Proof.
  intros H (_ & ms1 & ms2 & -> & Hn). apply Forall_app in Hn as [H1 H2]. rewrite Forall_forall in H1, H2. rewrite foldM_app, fold_quiet by (intros m' q Hm; apply H, H1, Hm). cbn [bind foldM].
  destruct (transform U w p m) as [q|e]; [|reflexivity]. cbn [bind]. apply fold_quiet. intros m' q' Hm. apply H, H2, Hm.
Qed.
Lemma upper_value q v : is_properties q -> pget q R_WORD_CASE = Ok (Some v) -> (holds q R_WORD_CASE WORD_CASE_UPPER <-> v = WORD_CASE_UPPER).
Proof.
  intros Hq Hv. apply is_properties_wf in Hq. rewrite <- holds_dget by exact Hq. rewrite pget_spec in Hv. destruct (dget rel_eqb R_WORD_CASE q) as [x|].
  - injection Hv as ->. split; congruence.
  - injection Hv as <-. split; discriminate.
Qed.
Lemma get_form_shown U w q v form : is_properties q -> pget q R_WORD_CASE = Ok (Some v) -> word__form w q = Ok form -> shown U v form (get_form U w q).
Proof.
  intros Hq Hv Hf. destruct (get_form_spec U w q form Hq Hf) as [G1 G2]. assert (E := upper_value q v Hq Hv). split; intros H.
  - rewrite (G1 (proj2 E H)). destruct form; reflexivity.
  - apply G2. intros X. apply H, E, X.
Qed.
(** the form for a combination *)
Lemma word__form_combination w q c : is_word w -> is_properties q -> values q (schema (w_type w)) c ->
  (forall g v, In g (schema (w_type w)) -> holds (w_props w) g v -> pget q g = Ok (Some v)) ->
  word__form w q = word_form w (Properties (map AProp c)).
Proof.
  intros Hw Hq Hc Hown. unfold word_form. apply word__form_ext. intros g Hg.
  assert (Hcp : is_properties (Properties (map AProp c))) by (apply Properties_ok; intros d Hd; apply in_map_iff in Hd as (? & [=] & _)).
  rewrite (pget_spec (Properties [_; _])), dget_Properties by (apply good_args_wf; intros d [[= <-]|[[= <-]|[]]]; [exact Hcp|apply Hw]).
  cbn [args_get arg_get]. destruct (dget rel_eqb g (w_props w)) as [v|] eqn:E.
  - apply Hown; [exact Hg|]. apply holds_dget; [apply is_properties_wf, Hw|exact E].
  - rewrite dget_Properties by (intros d Hd; apply in_map_iff in Hd as (? & [=] & _)).
    assert (N := schema_nodup (w_type w)). assert (Hwf := is_properties_wf q Hq).
    assert (Hin : exists v, pget q g = Ok (Some v) /\ args_get g (map AProp c) = Some v).
    { clear -Hc Hg N Hwf. induction Hc as [|g' v' sch c Hv Hc IH]; [destruct Hg|]. inversion N as [|? ? Hni N']; subst. cbn [map args_get arg_get].
      assert (Er := pget_rel q g' v' Hwf Hv). apply in_records in Er.
      destruct Hg as [->|Hg].
      - exists v'. split; [exact Hv|]. assert (X : args_get g (map AProp c) = None).
        { clear -Hc Hni Hwf. induction Hc as [|g' v sch c Hv Hc IH]; [reflexivity|]. cbn [map args_get arg_get]. rewrite IH by (intros H; apply Hni; right; exact H).
          assert (Er := pget_rel q g' v Hwf Hv). apply in_records in Er. rewrite Er. rewrite (proj1 (eqb_ok_neq _ rel_eqb_ok g' g)); [reflexivity|]. intros ->. apply Hni. left. reflexivity. }
        rewrite X, Er, (eqb_ok_refl _ rel_eqb_ok). reflexivity.
      - destruct (IH Hg N') as (v & H1 & H2). exists v. split; [exact H1|]. rewrite H2. reflexivity. }
    destruct Hin as (v & H1 & H2). rewrite H1, H2. reflexivity.
Qed.
