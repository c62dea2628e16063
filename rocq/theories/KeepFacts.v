(** * KeepFacts: what no operation whatsoever takes back: objects, what they were built on, attributes that were read, registered
    texts, the integer cache *)
From Coq Require Import Lia.
From Verif Require Import PyBase Relations Restrictions Logic Data Words Transformators Constructors Dictionary Templates Heap
  PyBaseFacts SpecProps SpecDictionary DictFacts SpecSubstitution SpecHeap HeapFacts.

(** everything but the lazy attributes in P *)
Record keeps_but (P : lazy_attribute -> Prop) (h h' : heap) : Prop := {
  k_lists : forall r l, nth_error (h_lists h) r = Some l -> exists l', nth_error (h_lists h') r = Some l';
  k_words : forall w o, nth_error (h_words h) w = Some o -> exists o', nth_error (h_words h') w = Some o' /\ hw_type o' = hw_type o /\ hw_list o' = hw_list o /\ hw_props o' = hw_props o /\
     (forall n, ~ P (L_syllables w) -> hw_syllables o = Some n -> hw_syllables o' = Some n) /\ (forall n, ~ P (L_fluent w) -> hw_fluent o = Some n -> hw_fluent o' = Some n);
  k_wfs : forall f o, nth_error (h_wordforms h) f = Some o -> exists o', nth_error (h_wordforms h') f = Some o' /\ hf_word o' = hf_word o /\ hf_props o' = hf_props o /\ hf_form_props o' = hf_form_props o /\
     (forall n, ~ P (L_form f) -> hf_form o = Some n -> hf_form o' = Some n) /\ (forall n, ~ P (L_cluster f) -> hf_cluster o = Some n -> hf_cluster o' = Some n);
  k_dicts : forall d D, nth_error (h_dicts h) d = Some D -> exists D', nth_error (h_dicts h') d = Some D' /\ forall t, dmem str_eqb t D = true -> dmem str_eqb t D' = true;
  k_ints : forall l, h_integers h = Some l -> h_integers h' = Some l }.
Notation keeps := (keeps_but (fun _ => False)).
Lemma keeps_but_refl P h : keeps_but P h h.
Proof. constructor; intros; eauto 10. Qed.
Lemma keeps_refl h : keeps h h.
Proof. constructor; intros; eauto 10. Qed.
Lemma keeps_trans P a b c : keeps_but P a b -> keeps_but P b c -> keeps_but P a c.
Proof.
  intros [A1 A2 A3 A4 A5] [B1 B2 B3 B4 B5]. constructor.
  - intros r l H. destruct (A1 _ _ H). eauto.
  - intros w o H. destruct (A2 _ _ H) as (o1 & N1 & ? & ? & ? & ? & ?). destruct (B2 _ _ N1) as (o2 & N2 & ? & ? & ? & ? & ?). exists o2. repeat split; try congruence; auto.
  - intros w o H. destruct (A3 _ _ H) as (o1 & N1 & ? & ? & ? & ? & ?). destruct (B3 _ _ N1) as (o2 & N2 & ? & ? & ? & ? & ?). exists o2. repeat split; try congruence; auto.
  - intros d D H. destruct (A4 _ _ H) as (D1 & H1 & T1). destruct (B4 _ _ H1) as (D2 & H2 & T2). exists D2. auto.
  - auto.
Qed.
Definition kept {A} (m : M A) : Prop := forall h, keeps h (fst (m h)).
Lemma kept_bind {A B} (m : M A) (k : A -> M B) : kept m -> (forall a, kept (k a)) -> kept (hbind m k).
Proof. intros Hm Hk h. unfold hbind. specialize (Hm h). destruct (m h) as [h1 [a|e]]; [|exact Hm]. eapply keeps_trans; [exact Hm|apply Hk]. Qed.
Lemma kept_still {A} (m : M A) : (forall h, fst (m h) = h) -> kept m.
Proof. intros H h. rewrite H. apply keeps_refl. Qed.
Lemma kept_ret {A} (a : A) : kept (ret a). Proof. apply kept_still. reflexivity. Qed.
Lemma kept_raise {A} e : kept (@raise A e). Proof. apply kept_still. reflexivity. Qed.
Lemma kept_reading {A} (f : heap -> result A) : kept (reading f). Proof. apply kept_still. reflexivity. Qed.
Lemma kept_lift {A} (r : result A) : kept (lift r). Proof. apply kept_still. reflexivity. Qed.
Lemma kept_hfold {A B} (f : B -> A -> M B) l : (forall b a, kept (f b a)) -> forall b, kept (hfold f l b).
Proof. intro H. induction l as [|a l IH]; intro b; cbn [hfold]; [apply kept_ret|apply kept_bind; auto]. Qed.
Lemma kept_hmap {A B} (f : A -> M B) l : (forall a, kept (f a)) -> kept (hmap f l).
Proof. intro H. induction l as [|a l IH]; cbn [hmap]; [apply kept_ret|]. apply kept_bind; [auto|]. intro b. apply kept_bind; [auto|]. intro bs. apply kept_ret. Qed.

Lemma kept_new_list l : kept (new_list l).
Proof. intro h. cbn. constructor; cbn; eauto 10 using nth_app_old. Qed.
Lemma kept_change r l : kept (change_list r l).
Proof.
  intro h. cbn. constructor; cbn; eauto 10.
  intros r0 l0 H. destruct (nth_error (h_lists h) r) eqn:E; [|rewrite list_set_none by exact E; eauto].
  rewrite (nth_set_cases _ _ _ _ _ E). destruct (Nat.eqb r0 r); eauto.
Qed.
Lemma kept_new_word t r p : kept (new_word t r p).
Proof. intro h. unfold new_word. destruct (l <- deref (h_lists h) r;; Word t l p); [|apply keeps_refl]. cbn. constructor; cbn; eauto 10 using nth_app_old. Qed.
Lemma kept_new_wordform w p fp : kept (new_wordform w p fp).
Proof. intro h. unfold new_wordform. destruct (deref (h_words h) w); [|apply keeps_refl]. cbn. constructor; cbn; eauto 10 using nth_app_old. Qed.
Lemma kept_new_dict : kept new_dict.
Proof. intro h. cbn. constructor; cbn; eauto 10 using nth_app_old. Qed.
Lemma keeps_word h w o o' : nth_error (h_words h) w = Some o -> hw_type o' = hw_type o -> hw_list o' = hw_list o -> hw_props o' = hw_props o ->
  (forall n, hw_syllables o = Some n -> hw_syllables o' = Some n) -> (forall n, hw_fluent o = Some n -> hw_fluent o' = Some n) -> keeps h (set_words h (list_set w o' (h_words h))).
Proof.
  intros Ho E1 E2 E3 E4 E5. constructor; cbn; eauto 10. intros w0 o0 H. rewrite (nth_set_cases _ _ _ _ _ Ho). destruct (Nat.eqb_spec w0 w) as [->|]; [|eauto 10].
  assert (o0 = o) by congruence. subst. eauto 10.
Qed.
Lemma keeps_wf h w o o' : nth_error (h_wordforms h) w = Some o -> hf_word o' = hf_word o -> hf_props o' = hf_props o -> hf_form_props o' = hf_form_props o ->
  (forall n, hf_form o = Some n -> hf_form o' = Some n) -> (forall n, hf_cluster o = Some n -> hf_cluster o' = Some n) -> keeps h (set_wordforms h (list_set w o' (h_wordforms h))).
Proof.
  intros Ho E1 E2 E3 E4 E5. constructor; cbn; eauto 10. intros w0 o0 H. rewrite (nth_set_cases _ _ _ _ _ Ho). destruct (Nat.eqb_spec w0 w) as [->|]; [|eauto 10].
  assert (o0 = o) by congruence. subst. eauto 10.
Qed.
Lemma syllables_run w h : syllables w h = match nth_error (h_words h) w with
  | None => (h, Err KeyError)
  | Some o => match hw_syllables o with Some n => (h, Ok n) | None =>
      match (W <- view_word h w ;; number_of_syllables W) with Ok n => (store_syllables w n h, Ok n) | Err e => (h, Err e) end end end.
Proof.
  unfold syllables, hbind, reading, deref. destruct (nth_error (h_words h) w) as [o|] eqn:E; [|reflexivity].
  destruct (hw_syllables o); [reflexivity|]. destruct (W <- view_word h w;; number_of_syllables W); reflexivity.
Qed.
Lemma fluent_run w h : fluent w h = match nth_error (h_words h) w with
  | None => (h, Err KeyError)
  | Some o => match hw_fluent o with Some n => (h, Ok n) | None =>
      match (W <- view_word h w ;; has_fluent_vowel W) with Ok n => (store_fluent w n h, Ok n) | Err e => (h, Err e) end end end.
Proof.
  unfold fluent, hbind, reading, deref. destruct (nth_error (h_words h) w) as [o|] eqn:E; [|reflexivity].
  destruct (hw_fluent o); [reflexivity|]. destruct (W <- view_word h w;; has_fluent_vowel W); reflexivity.
Qed.
Lemma text_run U f h : text U f h = match nth_error (h_wordforms h) f with
  | None => (h, Err KeyError)
  | Some o => match hf_form o with Some n => (h, Ok n) | None =>
      match (F <- view_wordform h f ;; wf_form U F) with Ok n => (store_form f n h, Ok n) | Err e => (h, Err e) end end end.
Proof.
  unfold text, hbind, reading, deref. destruct (nth_error (h_wordforms h) f) as [o|] eqn:E; [|reflexivity].
  destruct (hf_form o); [reflexivity|]. destruct (F <- view_wordform h f;; wf_form U F); reflexivity.
Qed.
Lemma kept_syllables w : kept (syllables w).
Proof.
  intro h. rewrite syllables_run. destruct (nth_error (h_words h) w) as [o|] eqn:E; [|apply keeps_refl]. destruct (hw_syllables o) eqn:Es; [apply keeps_refl|].
  destruct (W <- view_word h w;; number_of_syllables W); [|apply keeps_refl]. unfold store_syllables. cbn [fst]. rewrite E. eapply keeps_word; eauto. rewrite Es. discriminate.
Qed.
Lemma kept_fluent w : kept (fluent w).
Proof.
  intro h. rewrite fluent_run. destruct (nth_error (h_words h) w) as [o|] eqn:E; [|apply keeps_refl]. destruct (hw_fluent o) eqn:Es; [apply keeps_refl|].
  destruct (W <- view_word h w;; has_fluent_vowel W); [|apply keeps_refl]. unfold store_fluent. cbn [fst]. rewrite E. eapply keeps_word; eauto. rewrite Es. discriminate.
Qed.
Lemma kept_text U f : kept (text U f).
Proof.
  intro h. rewrite text_run. destruct (nth_error (h_wordforms h) f) as [o|] eqn:E; [|apply keeps_refl]. destruct (hf_form o) eqn:Es; [apply keeps_refl|].
  destruct (F <- view_wordform h f;; wf_form U F); [|apply keeps_refl]. unfold store_form. cbn [fst]. rewrite E. eapply keeps_wf; eauto. rewrite Es. discriminate.
Qed.
Lemma text_cluster U f h o : nth_error (h_wordforms h) f = Some o -> exists o', nth_error (h_wordforms (fst (text U f h))) f = Some o' /\ hf_cluster o' = hf_cluster o.
Proof.
  intro Ho. rewrite text_run, Ho. destruct (hf_form o); [eauto|]. destruct (F <- view_wordform h f;; wf_form U F); [|eauto]. unfold store_form. cbn [fst]. rewrite Ho. cbn.
  rewrite (nth_set_cases _ _ _ _ _ Ho), Nat.eqb_refl. eauto.
Qed.
Lemma cluster_run U f h : cluster U f h = match nth_error (h_wordforms h) f with
  | None => (h, Err KeyError)
  | Some o => match hf_cluster o with Some b => (h, Ok b) | None =>
      match text U f h with (h1, Err e) => (h1, Err e) | (h1, Ok s) =>
        match cluster_of s with Ok b => (store_cluster f b h1, Ok b) | Err e => (h1, Err e) end end end end.
Proof.
  unfold cluster, hbind, reading, deref, lift, modify, ret. destruct (nth_error (h_wordforms h) f) as [o|] eqn:E; [|reflexivity].
  destruct (hf_cluster o); [reflexivity|]. destruct (text U f h) as [h1 [s|e]]; [|reflexivity]. destruct (cluster_of s); reflexivity.
Qed.
Lemma kept_cluster U f : kept (cluster U f).
Proof.
  intro h. rewrite cluster_run. destruct (nth_error (h_wordforms h) f) as [o|] eqn:E; [|apply keeps_refl]. destruct (hf_cluster o) eqn:Es; [apply keeps_refl|].
  assert (K := kept_text U f h). destruct (text_cluster U f h o E) as (o1 & H1 & E1). destruct (text U f h) as [h1 [s|e]]; cbn [fst] in *; [|exact K].
  destruct (cluster_of s) as [b|]; [|exact K]. eapply keeps_trans; [exact K|]. unfold store_cluster. rewrite H1. eapply keeps_wf; eauto. rewrite E1, Es. discriminate.
Qed.
Lemma kept_master f : kept (master_word f). Proof. apply kept_reading. Qed.
Lemma kept_and b m : kept m -> kept (h_and b m). Proof. intro H. destruct b; [exact H|apply kept_ret]. Qed.
#[export] Hint Resolve kept_ret kept_raise kept_reading kept_lift kept_new_list kept_change kept_new_word kept_new_wordform kept_new_dict kept_syllables kept_fluent kept_text kept_cluster kept_master : kept.
Ltac kept := repeat first [ progress auto with kept | apply kept_bind; [|intro] | apply kept_and | apply kept_hfold; intros ? ? | apply kept_hmap; intros ?
  | match goal with |- kept (if ?b then _ else _) => destruct b | |- kept (match ?x with _ => _ end) => destruct x end ].
Lemma kept_serialize w : kept (serialize w). Proof. apply kept_still. reflexivity. Qed.
Lemma kept_deserialize d : kept (deserialize d).
Proof. unfold deserialize. kept. Qed.
Lemma kept_autofill w : kept (autofill w).
Proof. unfold autofill, autofill_item. kept. Qed.
Lemma kept_consonant U s p f : kept (h_consonant_preposition U s p f).
Proof. unfold h_consonant_preposition. kept. Qed.
Lemma kept_vowels U s p f : kept (h_vowels_preposition U s p f).
Proof. unfold h_vowels_preposition. kept. Qed.
Lemma kept_transform U w p f : kept (htransform U w p f).
Proof.
  assert (KC := kept_consonant). assert (KV := kept_vowels). unfold htransform, h_preposition, hnormal_form. kept.
Qed.
Lemma dmem_dset t t' f (D : dict str ref) : dmem str_eqb t D = true -> dmem str_eqb t (dset str_eqb t' f D) = true.
Proof.
  unfold dmem. destruct (str_eqb t' t) eqn:E.
  - apply str_eqb_ok in E. subst. rewrite (dget_dset_same _ str_eqb_ok). auto.
  - assert (t' <> t) by (intro X; apply str_eqb_ok in X; congruence). rewrite (dget_dset_other _ str_eqb_ok) by auto. auto.
Qed.
Lemma keeps_register d t f h : keeps h (register d t f h).
Proof.
  unfold register. destruct (nth_error (h_dicts h) d) as [D|] eqn:E; [|apply keeps_refl]. constructor; cbn; eauto 10.
  intros d0 D0 H. rewrite (nth_set_cases _ _ _ _ _ E). destruct (Nat.eqb_spec d0 d) as [->|]; [|eauto]. assert (D0 = D) by congruence. subst D0.
  eexists. split; [reflexivity|]. intros t0 Ht. apply dmem_dset. exact Ht.
Qed.
Lemma kept_add_word U d w : kept (hadd_word U d w).
Proof.
  unfold hadd_word, hadd_form. kept; intro h; apply keeps_register.
Qed.
Lemma kept_substitute U t ext d : kept (hsubstitute U t ext d).
Proof.
  assert (KT := kept_transform). unfold hsubstitute, hget_text, hget_word, h_list_properties_step. kept.
Qed.
Lemma raw_ints n h : h_integers (fst (h_construct_integer_raw n h)) = h_integers h.
Proof.
  unfold h_construct_integer_raw, hbind, new_list, new_word. destruct (l <- deref _ _;; Word WT_INTEGER l (integer_properties n)); [|reflexivity].
  unfold new_wordform. destruct (deref _ _); reflexivity.
Qed.
Lemma raws_ints is : forall h, h_integers (fst (hmap (fun i => h_construct_integer_raw (Z.of_nat i + CACHE_LEFT)) is h)) = h_integers h.
Proof.
  induction is as [|i is IH]; intro h; [reflexivity|]. cbn [hmap]. unfold hbind. assert (E := raw_ints (Z.of_nat i + CACHE_LEFT) h). destruct (h_construct_integer_raw _ h) as [h1 [r|e]]; cbn [fst] in *; [|exact E].
  specialize (IH h1). destruct (hmap _ is h1) as [h2 [l|e]]; cbn [fst ret] in *; congruence.
Qed.
Lemma kept_raw n : kept (h_construct_integer_raw n).
Proof. unfold h_construct_integer_raw. kept. Qed.
Lemma kept_integer n : kept (hconstruct_integer n).
Proof.
  intro h. unfold hconstruct_integer. destruct (in_cache_range n); [|apply kept_raw]. unfold hbind at 1, reading. destruct (h_integers h) as [l|] eqn:E; [apply kept_lift|].
  unfold hbind. assert (K : kept (hmap (fun i => h_construct_integer_raw (Z.of_nat i + CACHE_LEFT)) (seq 0 (Z.to_nat (CACHE_RIGHT - CACHE_LEFT + 1))))) by (apply kept_hmap; intro; apply kept_raw).
  specialize (K h). assert (EI := raws_ints (seq 0 (Z.to_nat (CACHE_RIGHT - CACHE_LEFT + 1))) h). destruct (hmap _ _ h) as [h1 [l|e]]; cbn [fst] in *; [|exact K].
  cbn [modify lift fst]. eapply keeps_trans; [exact K|]. constructor; cbn; eauto 10. intros l0 H. congruence.
Qed.
Lemma keeps_weaken (P Q : lazy_attribute -> Prop) h h' : (forall a, P a -> Q a) -> keeps_but P h h' -> keeps_but Q h h'.
Proof.
  intros HPQ [A1 A2 A3 A4 A5]. constructor; auto.
  - intros w o H. destruct (A2 _ _ H) as (o1 & N1 & ? & ? & ? & ? & ?). exists o1. repeat split; auto.
  - intros w o H. destruct (A3 _ _ H) as (o1 & N1 & ? & ? & ? & ? & ?). exists o1. repeat split; auto.
Qed.
Lemma keeps_forget a h : keeps_but (eq a) h (fst (forget a h)).
Proof.
  destruct (forget_dicts h a) as (ED & EI & EL). constructor.
  - rewrite EL. eauto.
  - intros w o H. destruct a as [v|v|v|v]; cbn [forget modify fst]; try (rewrite forget_wf_words; eauto 10; fail);
    unfold forget_in_word; (destruct (nth_error (h_words h) v) as [o1|] eqn:E; [|eauto 10]); cbn; rewrite (nth_set_cases _ _ _ _ _ E);
    (destruct (Nat.eqb_spec w v) as [->|]; [|eauto 10]); (assert (o1 = o) by congruence; subst o1); eexists; (split; [reflexivity|]); cbn; repeat split; auto; intros n Hn; exfalso; apply Hn; reflexivity.
  - intros w o H. destruct a as [v|v|v|v]; cbn [forget modify fst]; try (rewrite forget_word_wfs; eauto 10; fail);
    unfold forget_in_wordform; (destruct (nth_error (h_wordforms h) v) as [o1|] eqn:E; [|eauto 10]); cbn; rewrite (nth_set_cases _ _ _ _ _ E);
    (destruct (Nat.eqb_spec w v) as [->|]; [|eauto 10]); (assert (o1 = o) by congruence; subst o1); eexists; (split; [reflexivity|]); cbn; repeat split; auto; intros n Hn; exfalso; apply Hn; reflexivity.
  - rewrite ED. eauto.
  - rewrite EI. auto.
Qed.
Lemma keeps_perform U op h : keeps_but (fun a => op = Op_forget a) h (perform U op h).
Proof.
  destruct op; cbn [perform]; try (apply keeps_weaken with (P := fun _ => False); [tauto|]; first [apply kept_new_list|apply kept_change|apply kept_new_word|apply kept_deserialize|apply kept_syllables|apply kept_fluent|apply kept_autofill
    |apply kept_new_wordform|apply kept_text|apply kept_cluster|apply kept_new_dict|apply kept_add_word|apply kept_substitute|apply kept_integer|apply keeps_refl]; fail).
  eapply keeps_weaken; [|apply keeps_forget]. cbn. congruence.
Qed.
Lemma keeps_run U ops : forall h, keeps_but (fun a => In (Op_forget a) ops) h (run U ops h).
Proof.
  induction ops as [|op ops IH]; intro h; [apply keeps_but_refl|]. cbn [run fold_left].
  apply (keeps_trans _ h (perform U op h)); [eapply keeps_weaken; [|apply keeps_perform]; cbn; auto|eapply keeps_weaken; [|apply IH]; cbn; auto].
Qed.
