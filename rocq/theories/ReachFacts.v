(** * ReachFacts: the heaps a program can reach satisfy the invariant; every operation, on what the objects look like *)
From Coq Require Import Lia.
From Verif Require Import PyBase Relations Restrictions Logic Data Words Transformators Constructors Dictionary Templates Heap
  PyBaseFacts SpecProps PropsFacts SerFacts WordFacts PropWords SpecDictionary DictFacts SpecSubstitution SubstFacts PropIntegers SpecHeap HeapFacts.

Definition dicts_good (U : unicode) (h : heap) : Prop := forall d D, dict_at h d D -> is_sequential_dictionary U D.

Lemma dict_at_iff h d D : dict_at h d D <-> exists D0, nth_error (h_dicts h) d = Some D0 /\ view_entries h D0 = Ok D.
Proof.
  unfold dict_at, view_dict, deref. split.
  - destruct (nth_error (h_dicts h) d) as [D0|]; [|discriminate]. cbn [bind]. eauto.
  - intros (D0 & -> & H). exact H.
Qed.
Lemma empty_good U : is_sequential_dictionary U [].
Proof. exists []. split; [constructor|reflexivity]. Qed.
Lemma dicts_kept_but U h h' d D' : Inv U h -> same h h' -> same_dicts_but d h h' -> view_dict h' d = Ok D' -> is_sequential_dictionary U D' -> dicts_good U h -> dicts_good U h'.
Proof.
  intros I S SD HD HG G e D H. destruct (Nat.eq_dec e d) as [->|Hne].
  - unfold dict_at in H. rewrite HD in H. injection H as <-. exact HG.
  - apply dict_at_iff in H. destruct H as (D0 & H0 & HV). destruct (SD e Hne) as [E|[_ E]]; rewrite E in H0.
    + destruct (i_dicts _ _ I _ _ H0) as (V & HV'). assert (EV := same_entries _ _ _ _ S HV'). rewrite EV in HV. injection HV as <-.
      apply (G e). apply dict_at_iff. eauto.
    + injection H0 as <-. injection HV as <-. apply empty_good.
Qed.
Lemma dicts_kept U h h' : Inv U h -> same h h' -> same_dicts h h' -> dicts_good U h -> dicts_good U h'.
Proof.
  intros I S SD G e D H. apply dict_at_iff in H. destruct H as (D0 & H0 & HV).
  destruct SD as (m & E & F). rewrite E in H0. destruct (Nat.lt_ge_cases e (length (h_dicts h))) as [Hl|Hl].
  - rewrite nth_error_app1 in H0 by exact Hl. destruct (i_dicts _ _ I _ _ H0) as (V & HV'). assert (EV := same_entries _ _ _ _ S HV'). rewrite EV in HV. injection HV as <-.
    apply (G e). apply dict_at_iff. eauto.
  - rewrite nth_error_app2 in H0 by exact Hl. apply nth_error_In in H0. rewrite (F _ H0) in HV. injection HV as <-. apply empty_good.
Qed.

Definition fine {A} (U : unicode) (h : heap) (m : M A) : Prop := Inv U h -> Inv U (fst (m h)) /\ same h (fst (m h)) /\ same_dicts h (fst (m h)).
Lemma does_fine {A} U h (m : M A) Q : does U h m Q -> fine U h m.
Proof. intros H I. destruct (H I) as (a & b & c & _). auto. Qed.
Lemma still_fine {A} U h (m : M A) : fst (m h) = h -> fine U h m.
Proof. intros E I. rewrite E. split; [exact I|]. split; [apply same_refl|apply sd_eq; reflexivity]. Qed.
Lemma deserialize_props_ok data p : deserialize_props data = Ok p -> is_properties p.
Proof.
  unfold deserialize_props. destruct (mapM deserialize_entry data) as [args|] eqn:E; [|discriminate]. cbn [bind]. intro H. injection H as <-.
  constructor. intros d Hd. exfalso. apply in_concat in Hd. destruct Hd as (l & Hl & Hd).
  clear - E Hl Hd. revert args E l Hl Hd. induction data as [|e data IH]; intros args E l Hl Hd; cbn [mapM] in E; [injection E as <-; destruct Hl|].
  destruct (deserialize_entry e) as [x|] eqn:Ee; [|discriminate]. cbn [bind] in E. destruct (mapM deserialize_entry data) as [xs|] eqn:Es; [|discriminate]. cbn [bind] in E. injection E as <-.
  destruct Hl as [->|Hl]; [|eapply IH; eauto]. unfold deserialize_entry in Ee. destruct (py_int (fst e)) as [z|]; [|discriminate]. cbn [bind] in Ee.
  destruct (ptype_call z) as [r|]; [|injection Ee as <-; destruct Hd]. destruct (rel_call r (snd e)) as [q|]; injection Ee as <-; [|destruct Hd]. destruct Hd as [Hd|[]]. discriminate.
Qed.
Lemma deserialize_does U h data : does U h (deserialize data) (fun h' x => forall l, list_at h (hd_forms data) l ->
    match deserialize_word {| wd_type := hd_type data; wd_forms := l; wd_props := hd_props data |} with
    | Ok W => exists w, x = Ok w /\ word_at h' w W /\ built_on h' w (hd_forms data) /\ nth_error (h_words h) w = None
    | Err e => h' = h /\ x = Err e end).
Proof.
  unfold deserialize, deserialize_word. cbn [wd_type wd_forms wd_props]. destruct (wt_call (hd_type data)) as [t|].
  2:{ intro I. cbn. split; [exact I|]. split; [apply same_refl|]. split; [apply sd_eq; reflexivity|]. auto. }
  destruct (deserialize_props (hd_props data)) as [p|e] eqn:E.
  2:{ intro I. cbn. split; [exact I|]. split; [apply same_refl|]. split; [apply sd_eq; reflexivity|]. auto. }
  apply (new_word_does U h t (hd_forms data) p). eapply deserialize_props_ok; eauto.
Qed.
Lemma new_wordform_fine U h w p fp : (forall q, p = Some q -> is_properties q) -> (forall q, fp = Some q -> is_properties q) -> fine U h (new_wordform w p fp).
Proof.
  intros Hp Hfp I. destruct (nth_error (h_words h) w) as [o|] eqn:E.
  - destruct (i_words _ _ I _ _ E) as (l & Hl & _). apply (does_fine U h _ _ (new_wordform_does U h w (mkword o l) p fp Hp Hfp (proj2 (view_word_iff h w _) (ex_intro _ o (ex_intro _ l (conj E (conj Hl eq_refl)))))) I).
  - apply still_fine; [|exact I]. unfold new_wordform, deref. rewrite E. reflexivity.
Qed.

Lemma change_same_dicts h r l : h_dicts (fst (change_list r l h)) = h_dicts h.
Proof. reflexivity. Qed.
Lemma change_good U h r l : Inv U h -> unremembered h r -> dicts_good U h -> dicts_good U (fst (change_list r l h)).
Proof.
  intros I Hu G d D H. apply dict_at_iff in H. destruct H as (D0 & H0 & HV). rewrite change_same_dicts in H0. destruct (i_dicts _ _ I _ _ H0) as (V & HV').
  assert (E := change_entries h r l D0 V (fun t f o Hin Ho => unremembered_dict h r d D0 t f o Hu H0 Hin Ho) HV'). rewrite E in HV. injection HV as <-. apply (G d). apply dict_at_iff. eauto.
Qed.
Lemma add_word_good U D W : is_sequential_dictionary U D -> is_word W -> is_sequential_dictionary U (fst (add_word U D W)).
Proof. intros (ws & Hws & ->) HW. exists (ws ++ [W]). split; [apply Forall_app; auto|]. rewrite after_snoc. reflexivity. Qed.

Theorem reachable_inv U h : reachable U h -> Inv U h /\ dicts_good U h.
Proof.
  induction 1 as [|h op _ [I G] A].
  - split; [apply inv_empty|]. intros d D H. apply dict_at_iff in H. destruct H as (D0 & H & _). destruct d; discriminate.
  - assert (K : forall {A} (m : M A), fine U h m -> Inv U (fst (m h)) /\ dicts_good U (fst (m h))).
    { intros A0 m F. destruct (F I) as (I' & S & SD). split; [exact I'|exact (dicts_kept U h _ I S SD G)]. }
    destruct op; cbn [perform allowed] in *.
    + apply K. eapply does_fine, new_list_does.
    + destruct A as (Hu & Hl). split; [apply change_inv; auto|apply change_good; auto].
    + apply K. eapply does_fine, new_word_does, A.
    + apply K, still_fine. reflexivity.
    + apply K. eapply does_fine, deserialize_does.
    + apply K, still_fine. reflexivity.
    + apply K, still_fine. reflexivity.
    + destruct A as (W & HW). apply K. eapply does_fine, syllables_gives, HW.
    + destruct A as (W & HW). apply K. eapply does_fine, fluent_gives, HW.
    + destruct A as ((W & HW) & Hu). destruct (C17_keeps W (inv_word _ _ _ _ I HW)) as (W' & HA & _ & _ & _ & Hlen & _).
      destruct (autofill_eq h w W W' HW HA) as (r & Hb & E & _). rewrite E. cbn [fst].
      assert (Hl : forall l0 w0, list_at h r l0 -> built_on h w0 r -> length (w_forms W') = length l0).
      { intros l0 w0 Hl0 _. rewrite Hlen. apply view_word_iff in HW. destruct HW as (o & l & Ho & Hl & ->). destruct Hb as (o' & Ho' & <-).
        assert (o' = o) by congruence. subst o'. unfold list_at in Hl0. cbn. congruence. }
      split; [apply change_inv; auto|apply change_good; auto].
    + apply K. apply new_wordform_fine; apply A.
    + destruct A as (F & HF). apply K. eapply does_fine, text_gives, HF.
    + destruct A as (F & HF). apply K. eapply does_fine, cluster_gives, HF.
    + apply K. eapply does_fine, forget_does.
    + apply K. eapply does_fine, new_dict_does.
    + destruct A as ((D & HD) & (W & HW)). destruct (add_word_adds U h d D w W HD HW I) as (I' & S & SD & V & _). split; [exact I'|].
      refine (dicts_kept_but U h _ d _ I S SD V _ G). apply add_word_good; [exact (G d D HD)|exact (inv_word U h w W I HW)].
    + apply K, still_fine. reflexivity.
    + apply K, still_fine. reflexivity.
    + destruct A as ((EXT & HE) & (D & HD)). apply K. eapply does_fine, substitute_gives; eauto.
    + apply K. eapply does_fine, construct_integer_does.
Qed.

(** ** from [same] to the vocabulary of the specification *)
Lemma same_built h h' w r : same h h' -> built_on h w r -> built_on h' w r.
Proof. intros S (o & Ho & E). destruct (s_words _ _ S _ _ Ho) as (o' & Ho' & _ & E' & _). exists o'. split; [exact Ho'|congruence]. Qed.
Lemma same_unchanged h h' : same h h' -> same_dicts h h' -> unchanged h h'.
Proof.
  intros S SD. split; [exact (s_lists _ _ S)|]. split; [intros w W; apply same_word; auto|]. split; [intros f F; apply same_wf; auto|].
  split; [intros e D _; apply same_dict; auto|]. intros w r; apply same_built; auto.
Qed.
Lemma same_unchanged_but d h h' : same h h' -> same_dicts_but d h h' -> unchanged_but (Some d) h h'.
Proof.
  intros S SD. split; [exact (s_lists _ _ S)|]. split; [intros w W; apply same_word; auto|]. split; [intros f F; apply same_wf; auto|].
  split; [|intros w r; apply same_built; auto]. intros e D Hne H. apply dict_at_iff in H. destruct H as (D0 & H0 & HV). apply dict_at_iff. exists D0.
  assert (e <> d) by congruence. destruct (SD e H) as [E|[E _]]; [|congruence]. rewrite E. split; [exact H0|]. eapply same_entries; eauto.
Qed.
