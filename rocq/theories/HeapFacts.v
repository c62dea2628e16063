(** * HeapFacts: a heap whose cached attributes are right behaves like the values it shows *)
From Coq Require Import Lia.
From Verif Require Import PyBase Relations Restrictions Logic Data Words Transformators Constructors Dictionary Templates Heap
  PyBaseFacts SpecProps PropsFacts SpecDictionary DictFacts SpecSubstitution SubstFacts PropIntegers SpecHeap.

Definition mkword (o : hword) (l : list str) : word := {| w_type := hw_type o; w_forms := l; w_props := hw_props o |}.
Definition mkwf (o : hwordform) (W : word) : wordform := {| wf_word := W; wf_props := hf_props o; wf_form_props := hf_form_props o |}.

Lemma deref_ok {A} (l : list A) r a : deref l r = Ok a <-> nth_error l r = Some a.
Proof. unfold deref. destruct (nth_error l r); split; intro H; inversion H; reflexivity. Qed.

Lemma view_word_iff h w W : view_word h w = Ok W <-> exists o l, nth_error (h_words h) w = Some o /\ nth_error (h_lists h) (hw_list o) = Some l /\ W = mkword o l.
Proof.
  unfold view_word, deref. split.
  - destruct (nth_error (h_words h) w) as [o|]; [|discriminate]. cbn [bind]. destruct (nth_error (h_lists h) (hw_list o)) as [l|] eqn:E; [|discriminate].
    cbn [bind]. intro H. injection H as <-. exists o, l. repeat split; auto.
  - intros (o & l & H1 & H2 & ->). rewrite H1. cbn [bind]. rewrite H2. reflexivity.
Qed.
Lemma view_wordform_iff h f F : view_wordform h f = Ok F <-> exists o W, nth_error (h_wordforms h) f = Some o /\ view_word h (hf_word o) = Ok W /\ F = mkwf o W.
Proof.
  unfold view_wordform, deref. split.
  - destruct (nth_error (h_wordforms h) f) as [o|]; [|discriminate]. cbn [bind]. destruct (view_word h (hf_word o)) as [W|] eqn:E; [|discriminate].
    cbn [bind]. intro H. injection H as <-. exists o, W. repeat split; auto.
  - intros (o & W & H1 & H2 & ->). rewrite H1. cbn [bind]. rewrite H2. reflexivity.
Qed.

(** ** nothing that existed changes, except for lazy attributes *)
Record same (h h' : heap) : Prop := {
  s_lists : forall r l, nth_error (h_lists h) r = Some l -> nth_error (h_lists h') r = Some l;
  s_words : forall w o, nth_error (h_words h) w = Some o -> exists o', nth_error (h_words h') w = Some o' /\ hw_type o' = hw_type o /\ hw_list o' = hw_list o /\ hw_props o' = hw_props o;
  s_wfs : forall f o, nth_error (h_wordforms h) f = Some o -> exists o', nth_error (h_wordforms h') f = Some o' /\ hf_word o' = hf_word o /\ hf_props o' = hf_props o /\ hf_form_props o' = hf_form_props o }.
(** dictionaries are kept; new ones are empty *)
Definition same_dicts (h h' : heap) : Prop := exists more, h_dicts h' = h_dicts h ++ more /\ forall D, In D more -> D = [].
Lemma sd_nth h h' d D : same_dicts h h' -> nth_error (h_dicts h) d = Some D -> nth_error (h_dicts h') d = Some D.
Proof. intros (m & -> & _) H. rewrite nth_error_app1; [exact H|]. apply nth_error_Some. congruence. Qed.
Lemma sd_eq h h' : h_dicts h' = h_dicts h -> same_dicts h h'.
Proof. intro H. exists []. rewrite app_nil_r. split; [exact H|intros D []]. Qed.
Lemma sd_trans a b c : same_dicts a b -> same_dicts b c -> same_dicts a c.
Proof. intros (m & E & F) (m' & E' & F'). exists (m ++ m'). rewrite E', E, app_assoc. split; [reflexivity|]. intros D H. apply in_app_iff in H. destruct H; auto. Qed.

Lemma same_refl h : same h h.
Proof. constructor; intros; eauto. Qed.
Lemma same_trans a b c : same a b -> same b c -> same a c.
Proof.
  intros [A1 A2 A3] [B1 B2 B3]. constructor; intros.
  - auto.
  - destruct (A2 _ _ H) as (o' & H' & E1 & E2 & E3). destruct (B2 _ _ H') as (o2 & H2 & F1 & F2 & F3). exists o2. repeat split; congruence.
  - destruct (A3 _ _ H) as (o' & H' & E1 & E2 & E3). destruct (B3 _ _ H') as (o2 & H2 & F1 & F2 & F3). exists o2. repeat split; congruence.
Qed.
Lemma same_word h h' w W : same h h' -> view_word h w = Ok W -> view_word h' w = Ok W.
Proof.
  intros [S1 S2 S3] H. apply view_word_iff in H. destruct H as (o & l & Ho & Hl & ->). destruct (S2 _ _ Ho) as (o' & Ho' & E1 & E2 & E3).
  apply view_word_iff. exists o', l. split; [exact Ho'|]. split; [rewrite E2; auto|]. unfold mkword. rewrite E1, E3. reflexivity.
Qed.
Lemma same_wf h h' f F : same h h' -> view_wordform h f = Ok F -> view_wordform h' f = Ok F.
Proof.
  intros S H. apply view_wordform_iff in H. destruct H as (o & W & Ho & HW & ->). destruct (s_wfs _ _ S _ _ Ho) as (o' & Ho' & E1 & E2 & E3).
  apply view_wordform_iff. exists o', W. split; [exact Ho'|]. split; [rewrite E1; eapply same_word; eauto|]. unfold mkwf. rewrite E2, E3. reflexivity.
Qed.
Lemma same_entries h h' d D : same h h' -> view_entries h d = Ok D -> view_entries h' d = Ok D.
Proof.
  intros S. unfold view_entries. revert D. induction d as [|[t f] d IH]; intros D H; [exact H|]. cbn [mapM] in *.
  unfold view_entry at 1 in H. unfold view_entry at 1. cbn [fst snd] in *.
  destruct (view_wordform h f) as [F|] eqn:E; [|discriminate]. rewrite (same_wf _ _ _ _ S E). cbn [bind] in *.
  destruct (mapM (view_entry h) d) as [D'|] eqn:E'; [|discriminate]. rewrite (IH _ eq_refl). exact H.
Qed.
Lemma same_dict h h' d D : same h h' -> same_dicts h h' -> view_dict h d = Ok D -> view_dict h' d = Ok D.
Proof.
  intros S SD H. unfold view_dict, deref in *. destruct (nth_error (h_dicts h) d) as [D0|] eqn:E; [|discriminate]. rewrite (sd_nth _ _ _ _ SD E).
  cbn [bind] in *. eapply same_entries; eauto.
Qed.

(** ** the invariant: references are valid, cached attributes are right, objects are well-formed *)
Record Inv (U : unicode) (h : heap) : Prop := {
  i_words : forall w o, nth_error (h_words h) w = Some o -> exists l, nth_error (h_lists h) (hw_list o) = Some l /\ is_word (mkword o l) /\
      (forall n, hw_syllables o = Some n -> number_of_syllables_of l = Ok n) /\ (forall b, hw_fluent o = Some b -> has_fluent_vowel_of l = Ok b);
  i_wfs : forall f o, nth_error (h_wordforms h) f = Some o -> exists W, view_word h (hf_word o) = Ok W /\ is_wordform (mkwf o W) /\
      (forall s, hf_form o = Some s -> wf_form U (mkwf o W) = Ok s) /\ (forall b, hf_cluster o = Some b -> starts_with_consonant_cluster U (mkwf o W) = Ok b);
  i_dicts : forall d D, nth_error (h_dicts h) d = Some D -> exists V, view_entries h D = Ok V;
  i_ints : forall l, h_integers h = Some l -> forall n, in_cache_range n = true -> exists r, nth_error l (Z.to_nat n) = Some r /\ view_wordform h r = construct_integer_raw n }.

Lemma inv_empty U : Inv U empty_heap.
Proof. constructor; cbn; intros; try (destruct w; discriminate); try (destruct f; discriminate); try (destruct d; discriminate); discriminate. Qed.

Lemma inv_word U h w W : Inv U h -> view_word h w = Ok W -> is_word W.
Proof. intros I H. apply view_word_iff in H. destruct H as (o & l & Ho & Hl & ->). destruct (i_words _ _ I _ _ Ho) as (l' & Hl' & Hw & _). assert (l' = l) by congruence. subst. exact Hw. Qed.
Lemma inv_wf U h f F : Inv U h -> view_wordform h f = Ok F -> is_wordform F.
Proof. intros I H. apply view_wordform_iff in H. destruct H as (o & W & Ho & HW & ->). destruct (i_wfs _ _ I _ _ Ho) as (W' & HW' & Hw & _). assert (W' = W) by congruence. subst. exact Hw. Qed.

(** ** triples *)
Definition does {A} (U : unicode) (h : heap) (m : M A) (Q : heap -> result A -> Prop) : Prop :=
  Inv U h -> Inv U (fst (m h)) /\ same h (fst (m h)) /\ same_dicts h (fst (m h)) /\ Q (fst (m h)) (snd (m h)).
Definition gives {A} (U : unicode) (h : heap) (m : M A) (r : result A) : Prop := does U h m (fun _ x => x = r).

Lemma does_conseq {A} U h (m : M A) (Q Q' : heap -> result A -> Prop) : (forall h' x, Q h' x -> Q' h' x) -> does U h m Q -> does U h m Q'.
Proof. intros HQ H I. destruct (H I) as (a & b & c & d). auto. Qed.
Lemma does_bind {A B} U h (m : M A) (k : A -> M B) (R : heap -> result A -> Prop) (Q : heap -> result B -> Prop) :
  does U h m R ->
  (forall h' a, same h h' -> same_dicts h h' -> R h' (Ok a) -> does U h' (k a) Q) ->
  (forall h' e, same h h' -> same_dicts h h' -> R h' (Err e) -> Q h' (Err e)) -> does U h (hbind m k) Q.
Proof.
  intros Hm Hk He I. unfold hbind. destruct (Hm I) as (I1 & S1 & D1 & R1). destruct (m h) as [h1 [a|e]]; cbn [fst snd] in *.
  - destruct (Hk h1 a S1 D1 R1 I1) as (I2 & S2 & D2 & Q2). split; [exact I2|]. split; [eapply same_trans; eauto|]. split; [|exact Q2].
    eapply sd_trans; eauto.
  - auto.
Qed.
Lemma gives_bind {A B} U h (m : M A) (k : A -> M B) x (f : A -> result B) :
  gives U h m x -> (forall h' a, same h h' -> same_dicts h h' -> x = Ok a -> gives U h' (k a) (f a)) -> gives U h (hbind m k) (bind x f).
Proof.
  intros Hm Hk. eapply does_bind; [exact Hm| |].
  - intros h' a S D E. cbn in E. rewrite <- E. cbn [bind]. apply Hk; auto.
  - intros h' e S D E. cbn in E. rewrite <- E. reflexivity.
Qed.
Lemma gives_ret {A} U h (a : A) : gives U h (ret a) (Ok a).
Proof. intro I. cbn. split; [exact I|]. split; [apply same_refl|]. split; [apply sd_eq; reflexivity|reflexivity]. Qed.
Lemma gives_raise {A} U h e : gives U h (@raise A e) (Err e).
Proof. intro I. cbn. split; [exact I|]. split; [apply same_refl|]. split; [apply sd_eq; reflexivity|reflexivity]. Qed.
Lemma gives_reading {A} U h (f : heap -> result A) : gives U h (reading f) (f h).
Proof. intro I. cbn. split; [exact I|]. split; [apply same_refl|]. split; [apply sd_eq; reflexivity|reflexivity]. Qed.
Lemma gives_read {A} U h (f : heap -> result A) r : f h = r -> gives U h (reading f) r.
Proof. intros <-. exact (gives_reading U h f). Qed.
Lemma gives_lift {A} U h (r : result A) : gives U h (lift r) r.
Proof. intro I. cbn. split; [exact I|]. split; [apply same_refl|]. split; [apply sd_eq; reflexivity|reflexivity]. Qed.
Lemma gives_modify U h f : (Inv U h -> Inv U (f h) /\ same h (f h) /\ same_dicts h (f h)) -> gives U h (modify f) (Ok tt).
Proof. intros H I. destruct (H I) as (a & b & c). cbn. auto. Qed.
Lemma gives_eq {A} U h (m : M A) r r' : r = r' -> gives U h m r -> gives U h m r'.
Proof. intros <-. auto. Qed.
(** the invariant may be used for computing the result *)
Lemma gives_inv {A} U h (m : M A) r : (Inv U h -> gives U h m r) -> gives U h m r.
Proof. intros H I. exact (H I I). Qed.

(** writing a right value into a lazy attribute *)
Lemma nth_set_cases {A} (l : list A) i x j a : nth_error l i = Some a ->
  nth_error (list_set i x l) j = if Nat.eqb j i then Some x else nth_error l j.
Proof. intro H. exact (list_set_nth_at l i x j a H). Qed.

Lemma store_word U h w o o' l : Inv U h -> nth_error (h_words h) w = Some o -> nth_error (h_lists h) (hw_list o) = Some l ->
  hw_type o' = hw_type o -> hw_list o' = hw_list o -> hw_props o' = hw_props o ->
  (forall n, hw_syllables o' = Some n -> number_of_syllables_of l = Ok n) -> (forall b, hw_fluent o' = Some b -> has_fluent_vowel_of l = Ok b) ->
  let h' := set_words h (list_set w o' (h_words h)) in Inv U h' /\ same h h' /\ same_dicts h h'.
Proof.
  intros I Ho Hl E1 E2 E3 Hs Hf h'.
  assert (S : same h h').
  { constructor; cbn.
    - auto.
    - intros w0 o0 H0. rewrite (nth_set_cases _ _ _ _ _ Ho). destruct (Nat.eqb_spec w0 w) as [->|]; [|eauto].
      assert (o0 = o) by congruence. subst. eauto.
    - eauto. }
  split; [|split; [exact S|apply sd_eq; reflexivity]].
  constructor.
  - intros w0 o0. cbn. rewrite (nth_set_cases _ _ _ _ _ Ho). destruct (Nat.eqb_spec w0 w) as [->|].
    + intro H. injection H as <-. destruct (i_words _ _ I _ _ Ho) as (l' & Hl' & Hw & _). assert (l' = l) by congruence. subst l'.
      exists l. rewrite E2. split; [exact Hl|]. split; [|auto]. unfold mkword in *. rewrite E1, E3. exact Hw.
    + intro H. apply (i_words _ _ I _ _ H).
  - intros f F H. cbn in H. destruct (i_wfs _ _ I _ _ H) as (W & HW & R). exists W. split; [eapply same_word; eauto|exact R].
  - intros d D H. cbn in H. destruct (i_dicts _ _ I _ _ H) as (V & HV). exists V. eapply same_entries; eauto.
  - intros li H n Hn. cbn in H. destruct (i_ints _ _ I _ H n Hn) as (r & Hr & HF). exists r. split; [exact Hr|].
    rewrite raw_ok in *. eapply same_wf; eauto.
Qed.
Lemma store_wf U h f o o' W : Inv U h -> nth_error (h_wordforms h) f = Some o -> view_word h (hf_word o) = Ok W ->
  hf_word o' = hf_word o -> hf_props o' = hf_props o -> hf_form_props o' = hf_form_props o ->
  (forall s, hf_form o' = Some s -> wf_form U (mkwf o W) = Ok s) -> (forall b, hf_cluster o' = Some b -> starts_with_consonant_cluster U (mkwf o W) = Ok b) ->
  let h' := set_wordforms h (list_set f o' (h_wordforms h)) in Inv U h' /\ same h h' /\ same_dicts h h'.
Proof.
  intros I Ho HW E1 E2 E3 Hs Hf h'.
  assert (S : same h h').
  { constructor; cbn.
    - auto.
    - eauto.
    - intros w0 o0 H0. rewrite (nth_set_cases _ _ _ _ _ Ho). destruct (Nat.eqb_spec w0 f) as [->|]; [|eauto].
      assert (o0 = o) by congruence. subst. eauto. }
  split; [|split; [exact S|apply sd_eq; reflexivity]].
  constructor.
  - intros w0 o0 H. apply (i_words _ _ I _ _ H).
  - intros w0 o0. cbn. rewrite (nth_set_cases _ _ _ _ _ Ho). destruct (Nat.eqb_spec w0 f) as [->|].
    + intro H. injection H as <-. destruct (i_wfs _ _ I _ _ Ho) as (W' & HW' & Hw & _). assert (W' = W) by congruence. subst W'.
      exists W. rewrite E1. split; [eapply same_word; eauto|]. assert (EE : mkwf o' W = mkwf o W) by (unfold mkwf; rewrite E2, E3; reflexivity).
      rewrite EE. auto.
    + intro H. destruct (i_wfs _ _ I _ _ H) as (W' & HW' & R). exists W'. split; [eapply same_word; eauto|exact R].
  - intros d D H. cbn in H. destruct (i_dicts _ _ I _ _ H) as (V & HV). exists V. eapply same_entries; eauto.
  - intros li H n Hn. cbn in H. destruct (i_ints _ _ I _ H n Hn) as (r & Hr & HF). exists r. split; [exact Hr|].
    rewrite raw_ok in *. eapply same_wf; eauto.
Qed.

(** ** the operations *)
Lemma syllables_gives U h w W : view_word h w = Ok W -> gives U h (syllables w) (number_of_syllables W).
Proof.
  intro H. apply gives_inv. intro I. apply view_word_iff in H. destruct H as (o & l & Ho & Hl & ->).
  unfold syllables. apply (gives_eq _ _ _ (bind (Ok o) (fun _ => number_of_syllables (mkword o l)))); [reflexivity|].
  apply gives_bind. { apply gives_read; cbn beta; unfold deref; rewrite Ho; reflexivity. }
  intros h' a S D E. injection E as <-.
  destruct (hw_syllables o) as [n|] eqn:En.
  - destruct (i_words _ _ I _ _ Ho) as (l' & Hl' & _ & Hn & _). assert (l' = l) by congruence. subst l'. apply (gives_eq _ _ _ (Ok n)); [symmetry; apply Hn; exact En|apply gives_ret].
  - apply (gives_eq _ _ _ (bind (number_of_syllables (mkword o l)) (fun n => Ok n))); [destruct (number_of_syllables (mkword o l)); reflexivity|].
    assert (HW : view_word h' w = Ok (mkword o l)). { eapply same_word; [exact S|]. apply view_word_iff. eauto. }
    apply gives_bind.
    { apply gives_read; cbn beta; rewrite HW; reflexivity. }
    intros h2 n S2 D2 E2. apply (gives_eq _ _ _ (bind (Ok tt) (fun _ => Ok n))); [reflexivity|]. apply gives_bind; [|intros; apply gives_ret].
    apply gives_modify. intro I2. assert (HW2 := same_word _ _ _ _ S2 HW). apply view_word_iff in HW2. destruct HW2 as (o2 & l2 & Ho2 & Hl2 & EW).
    unfold store_syllables. rewrite Ho2. assert (l2 = l) by (unfold mkword in EW; congruence). subst l2.
    destruct (i_words _ _ I2 _ _ Ho2) as (l3 & Hl3 & _ & _ & Hf3). assert (l3 = l) by congruence. subst l3.
    apply (store_word U h2 w o2 _ l); auto; cbn. intros n' En'. injection En' as <-. exact E2.
Qed.
Lemma fluent_gives U h w W : view_word h w = Ok W -> gives U h (fluent w) (has_fluent_vowel W).
Proof.
  intro H. apply gives_inv. intro I. apply view_word_iff in H. destruct H as (o & l & Ho & Hl & ->).
  unfold fluent. apply (gives_eq _ _ _ (bind (Ok o) (fun _ => has_fluent_vowel (mkword o l)))); [reflexivity|].
  apply gives_bind. { apply gives_read; cbn beta; unfold deref; rewrite Ho; reflexivity. }
  intros h' a S D E. injection E as <-.
  destruct (hw_fluent o) as [n|] eqn:En.
  - destruct (i_words _ _ I _ _ Ho) as (l' & Hl' & _ & _ & Hn). assert (l' = l) by congruence. subst l'. apply (gives_eq _ _ _ (Ok n)); [symmetry; apply Hn; exact En|apply gives_ret].
  - apply (gives_eq _ _ _ (bind (has_fluent_vowel (mkword o l)) (fun n => Ok n))); [destruct (has_fluent_vowel (mkword o l)); reflexivity|].
    assert (HW : view_word h' w = Ok (mkword o l)). { eapply same_word; [exact S|]. apply view_word_iff. eauto. }
    apply gives_bind.
    { apply gives_read; cbn beta; rewrite HW; reflexivity. }
    intros h2 n S2 D2 E2. apply (gives_eq _ _ _ (bind (Ok tt) (fun _ => Ok n))); [reflexivity|]. apply gives_bind; [|intros; apply gives_ret].
    apply gives_modify. intro I2. assert (HW2 := same_word _ _ _ _ S2 HW). apply view_word_iff in HW2. destruct HW2 as (o2 & l2 & Ho2 & Hl2 & EW).
    unfold store_fluent. rewrite Ho2. assert (l2 = l) by (unfold mkword in EW; congruence). subst l2.
    destruct (i_words _ _ I2 _ _ Ho2) as (l3 & Hl3 & _ & Hs3 & _). assert (l3 = l) by congruence. subst l3.
    apply (store_word U h2 w o2 _ l); auto; cbn. intros n' En'. injection En' as <-. exact E2.
Qed.
Lemma text_gives U h f F : view_wordform h f = Ok F -> gives U h (text U f) (wf_form U F).
Proof.
  intro H. apply gives_inv. intro I. apply view_wordform_iff in H. destruct H as (o & W & Ho & HW & ->).
  unfold text. apply (gives_eq _ _ _ (bind (Ok o) (fun _ => wf_form U (mkwf o W)))); [reflexivity|].
  apply gives_bind. { apply gives_read; cbn beta; unfold deref; rewrite Ho; reflexivity. }
  intros h' a S D E. injection E as <-.
  destruct (hf_form o) as [n|] eqn:En.
  - destruct (i_wfs _ _ I _ _ Ho) as (W' & HW' & _ & Hn & _). assert (W' = W) by congruence. subst W'. apply (gives_eq _ _ _ (Ok n)); [symmetry; apply Hn; exact En|apply gives_ret].
  - apply (gives_eq _ _ _ (bind (wf_form U (mkwf o W)) (fun n => Ok n))); [destruct (wf_form U (mkwf o W)); reflexivity|].
    assert (HF : view_wordform h' f = Ok (mkwf o W)). { eapply same_wf; [exact S|]. apply view_wordform_iff. eauto. }
    apply gives_bind.
    { apply gives_read; cbn beta; rewrite HF; reflexivity. }
    intros h2 n S2 D2 E2. apply (gives_eq _ _ _ (bind (Ok tt) (fun _ => Ok n))); [reflexivity|]. apply gives_bind; [|intros; apply gives_ret].
    apply gives_modify. intro I2. assert (HF2 := same_wf _ _ _ _ S2 HF). apply view_wordform_iff in HF2. destruct HF2 as (o2 & W2 & Ho2 & HW2 & EF).
    unfold store_form. rewrite Ho2. rewrite EF in E2.
    destruct (i_wfs _ _ I2 _ _ Ho2) as (W3 & HW3 & _ & _ & Hc3). assert (W3 = W2) by congruence. subst W3.
    apply (store_wf U h2 f o2 _ W2); auto; cbn. intros n' En'. injection En' as <-. exact E2.
Qed.
Lemma cluster_def U F : starts_with_consonant_cluster U F = bind (wf_form U F) cluster_of.
Proof. unfold starts_with_consonant_cluster, cluster_of. destruct (wf_form U F) as [[|c [|d s]]|]; reflexivity. Qed.
Lemma cluster_gives U h f F : view_wordform h f = Ok F -> gives U h (cluster U f) (starts_with_consonant_cluster U F).
Proof.
  intro H. assert (H0 := H). apply gives_inv. intro I. apply view_wordform_iff in H. destruct H as (o & W & Ho & HW & ->).
  unfold cluster. apply (gives_eq _ _ _ (bind (Ok o) (fun _ => starts_with_consonant_cluster U (mkwf o W)))); [reflexivity|].
  apply gives_bind. { apply gives_read; cbn beta; unfold deref; rewrite Ho; reflexivity. }
  intros h' a S D E. injection E as <-.
  destruct (hf_cluster o) as [n|] eqn:En.
  - destruct (i_wfs _ _ I _ _ Ho) as (W' & HW' & _ & _ & Hn). assert (W' = W) by congruence. subst W'. apply (gives_eq _ _ _ (Ok n)); [symmetry; apply Hn; exact En|apply gives_ret].
  - assert (HF := same_wf _ _ _ _ S H0). rewrite cluster_def.
    apply gives_bind; [apply text_gives; exact HF|]. intros h1 s S1 D1 E1.
    apply (gives_eq _ _ _ (bind (cluster_of s) (fun n => Ok n))); [destruct (cluster_of s); reflexivity|].
    apply gives_bind; [apply gives_lift|]. intros h2 n S2 D2 E2.
    apply (gives_eq _ _ _ (bind (Ok tt) (fun _ => Ok n))); [reflexivity|]. apply gives_bind; [|intros; apply gives_ret].
    apply gives_modify. intro I2. assert (HF2 := same_wf _ _ _ _ (same_trans _ _ _ S1 S2) HF). apply view_wordform_iff in HF2. destruct HF2 as (o2 & W2 & Ho2 & HW2 & EF).
    unfold store_cluster. rewrite Ho2. rewrite EF in E1.
    destruct (i_wfs _ _ I2 _ _ Ho2) as (W3 & HW3 & _ & Hf3 & _). assert (W3 = W2) by congruence. subst W3.
    apply (store_wf U h2 f o2 _ W2); auto; cbn. intros n' En'. injection En' as <-. rewrite cluster_def, E1. exact E2.
Qed.
Lemma h_and_gives U h b m r : (b = true -> gives U h m r) -> gives U h (h_and b m) (py_and b r).
Proof. intro H. destruct b; cbn; [apply H; reflexivity|apply gives_ret]. Qed.
Lemma master_word_gives U h f F : view_wordform h f = Ok F -> exists w, view_word h w = Ok (wf_word F) /\ gives U h (master_word f) (Ok w).
Proof.
  intro H. apply view_wordform_iff in H. destruct H as (o & W & Ho & HW & ->). exists (hf_word o). split; [exact HW|].
  unfold master_word. apply gives_read; cbn beta; unfold deref; rewrite Ho; reflexivity.
Qed.
Lemma consonant_gives U h slave p f F : view_wordform h f = Ok F -> gives U h (h_consonant_preposition U slave p f) (consonant_preposition_any U slave p F).
Proof.
  intro H. unfold h_consonant_preposition, consonant_preposition_any.
  apply gives_bind; [apply text_gives; exact H|]. intros h1 master S1 D1 E1. assert (H1 := same_wf _ _ _ _ S1 H).
  apply gives_bind; [apply cluster_gives; exact H1|]. intros h2 cl S2 D2 E2. assert (H2 := same_wf _ _ _ _ S2 H1).
  apply gives_bind.
  { apply h_and_gives. intros _. destruct (master_word_gives U h2 f F H2) as (w & Hw & Gw).
    apply (gives_eq _ _ _ (bind (Ok w) (fun _ => n <- number_of_syllables (wf_word F) ;; py_and (Nat.eqb n 1) (has_fluent_vowel (wf_word F))))); [reflexivity|].
    apply gives_bind; [exact Gw|]. intros h3 w' S3 D3 E3. injection E3 as <-. assert (Hw3 := same_word _ _ _ _ S3 Hw).
    apply gives_bind; [apply syllables_gives; exact Hw3|]. intros h4 n S4 D4 E4. apply h_and_gives. intros _.
    assert (H4 := same_wf _ _ _ _ (same_trans _ _ _ S3 S4) H2). destruct (master_word_gives U h4 f F H4) as (w4 & Hw4 & Gw4).
    apply (gives_eq _ _ _ (bind (Ok w4) (fun _ => has_fluent_vowel (wf_word F)))); [reflexivity|]. apply gives_bind; [exact Gw4|].
    intros h5 w5 S5 D5 E5. injection E5 as <-. apply fluent_gives. eapply same_word; eauto. }
  intros h3 r1 S3 D3 E3. destruct r1; [apply gives_ret|]. assert (H3 := same_wf _ _ _ _ S3 H2).
  apply gives_bind.
  { apply h_and_gives. intros _. apply gives_bind; [apply gives_lift|]. intros h4 c S4 D4 E4.
    assert (H4 := same_wf _ _ _ _ S4 H3). apply (gives_eq _ _ _ (py_and (str_eqb slave [c]) (starts_with_consonant_cluster U F))).
    { rewrite E2. destruct (str_eqb slave [c]); reflexivity. }
    apply h_and_gives. intros _. apply cluster_gives. exact H4. }
  intros h4 r2 S4 D4 E4. destruct r2; apply gives_ret.
Qed.
Lemma vowels_gives U h slave p f F : view_wordform h f = Ok F -> gives U h (h_vowels_preposition U slave p f) (vowels_preposition_any U slave p F).
Proof.
  intro H. unfold h_vowels_preposition, vowels_preposition_any.
  apply gives_bind; [apply text_gives; exact H|]. intros h1 master S1 D1 E1.
  destruct (str_eqb slave (u "о") && mem str_eqb master special_masters); [apply gives_ret|].
  apply gives_bind; [apply gives_lift|]. intros h2 c S2 D2 E2. destruct (mem N.eqb c NOT_J_VOWELS); apply gives_ret.
Qed.
Lemma preposition_gives U h w W p f F : view_word h w = Ok W -> view_wordform h f = Ok F -> gives U h (h_preposition U w p f) (preposition_any U W p F).
Proof.
  intros HW H. unfold h_preposition, preposition_any.
  apply gives_bind. { unfold hnormal_form. apply gives_read; cbn beta; rewrite HW; reflexivity. }
  intros h1 slave S1 D1 E1. apply gives_bind; [apply gives_lift|]. intros h2 c S2 D2 E2. assert (H2 := same_wf _ _ _ _ (same_trans _ _ _ S1 S2) H).
  destruct (mem N.eqb c CONSONANTS); [apply consonant_gives|apply vowels_gives]; exact H2.
Qed.
Lemma transform_gives U h w W p f F : view_word h w = Ok W -> view_wordform h f = Ok F -> gives U h (htransform U w p f) (transform U W p F).
Proof.
  intros HW H. unfold htransform, transform.
  destruct (proj1 (view_word_iff _ _ _) HW) as (o & l & Ho & Hl & EW).
  match goal with |- gives _ _ _ ?r => apply (gives_eq _ _ _ (bind (Ok o) (fun _ => r))); [reflexivity|] end.
  apply gives_bind. { apply gives_read; cbn beta; unfold deref; rewrite Ho; reflexivity. }
  intros h1 s S1 D1 E1. injection E1 as <-. assert (H1 := same_wf _ _ _ _ S1 H). destruct (master_word_gives U h1 f F H1) as (wm & Hm & Gm).
  match goal with |- gives _ _ _ ?r => apply (gives_eq _ _ _ (bind (Ok wm) (fun _ => r))); [reflexivity|] end.
  apply gives_bind; [exact Gm|]. intros h2 wm' S2 D2 E2. injection E2 as <-. assert (Hm2 := same_word _ _ _ _ S2 Hm).
  destruct (proj1 (view_word_iff _ _ _) Hm2) as (om & lm & Hom & Hlm & EM).
  match goal with |- gives _ _ _ ?r => apply (gives_eq _ _ _ (bind (Ok om) (fun _ => r))); [reflexivity|] end.
  apply gives_bind. { apply gives_read; cbn beta; unfold deref; rewrite Hom; reflexivity. }
  intros h3 s' S3 D3 E3. injection E3 as <-.
  rewrite EM. rewrite EW at 1. cbn [mkword w_type].
  destruct (dget wt_pair_eqb (hw_type o, hw_type om) TRANSFORMATORS) as [[]|].
  - apply gives_lift.
  - apply gives_lift.
  - assert (S := same_trans _ _ _ S1 (same_trans _ _ _ S2 S3)). apply preposition_gives; [exact (same_word _ _ _ _ S HW)|exact (same_wf _ _ _ _ S H)].
  - apply gives_ret.
Qed.
Lemma normal_form_gives U h w W : view_word h w = Ok W -> gives U h (hnormal_form w) (normal_form W).
Proof. intro HW. unfold hnormal_form. apply gives_read; cbn beta; rewrite HW; reflexivity. Qed.

(** substitution *)
Lemma entries_dget h d D t : view_entries h d = Ok D -> match dget str_eqb t d with
  | Some f => exists F, view_wordform h f = Ok F /\ dget str_eqb t D = Some F | None => dget str_eqb t D = None end.
Proof.
  unfold view_entries. revert D. induction d as [|[t' f] d IH]; intros D H; cbn [mapM] in H; [injection H as <-; reflexivity|].
  unfold view_entry at 1 in H. cbn [fst snd] in H. destruct (view_wordform h f) as [F|] eqn:E; [|discriminate]. cbn [bind] in H.
  destruct (mapM (view_entry h) d) as [D'|] eqn:E'; [|discriminate]. cbn [bind] in H. injection H as <-. cbn [dget].
  destruct (str_eqb t t') eqn:Et; [|apply IH; reflexivity]. exists F. auto.
Qed.
Definition list_ok (h : heap) (acc : list parg * list ref) (acc' : list parg * list wordform) : Prop :=
  fst acc = fst acc' /\ Forall2 (fun f F => view_wordform h f = Ok F) (snd acc) (snd acc').
Lemma list_gives U h ext EXT deps : view_entries h ext = Ok EXT -> forall acc acc', list_ok h acc acc' ->
  does U h (hfold (h_list_properties_step ext) deps acc) (fun h' x => match x, foldM (list_properties_step EXT) deps acc' with
    | Ok a, Ok a' => list_ok h' a a' | Err e, Err e' => e = e' | _, _ => False end).
Proof.
  intro HE. induction deps as [|dep deps IH]; intros acc acc' HA.
  - cbn [hfold foldM]. intro I. cbn. split; [exact I|]. split; [apply same_refl|]. split; [apply sd_eq; reflexivity|exact HA].
  - cbn [hfold foldM]. destruct HA as [HA1 HA2]. destruct dep as [name|p].
    + cbn [h_list_properties_step list_properties_step]. assert (HG := entries_dget h ext EXT name HE). destruct (dget str_eqb name ext) as [f|].
      * destruct HG as (F & HF & ->). assert (HF0 := HF). apply view_wordform_iff in HF. destruct HF as (o & W & Ho & HW & EF).
        cbn [bind]. 
        assert (G : forall A (k : list parg * list ref -> M A) Q, does U h (k (fst acc ++ [AProps (hf_props o)], snd acc ++ [f])) Q ->
            does U h (b' <~ (o0 <~ reading (fun h0 => deref (h_wordforms h0) f) ;; ret (fst acc ++ [AProps (hf_props o0)], snd acc ++ [f])) ;; k b') Q).
        { intros A k Q HQ I. unfold hbind, reading, deref. rewrite Ho. cbn. apply HQ. exact I. }
        apply G. apply IH. split; cbn [fst snd].
        -- rewrite HA1, EF. reflexivity.
        -- apply Forall2_app; [exact HA2|]. constructor; [exact HF0|constructor].
      * rewrite HG. cbn [bind]. intro I. cbn. split; [exact I|]. split; [apply same_refl|]. split; [apply sd_eq; reflexivity|reflexivity].
    + cbn [h_list_properties_step list_properties_step bind].
      assert (G : forall A (k : list parg * list ref -> M A) x Q, does U h (k x) Q -> does U h (b' <~ ret x ;; k b') Q) by (intros A k x Q HQ I; exact (HQ I)).
      apply G. apply IH. split; cbn [fst snd]; [rewrite HA1; reflexivity|exact HA2].
Qed.
Lemma transforms_gives U w W fs : forall Fs h p, view_word h w = Ok W -> Forall2 (fun f F => view_wordform h f = Ok F) fs Fs ->
  gives U h (hfold (fun fp f => htransform U w fp f) fs p) (foldM (fun fp F => transform U W fp F) Fs p).
Proof.
  induction fs as [|f fs IH]; intros Fs h p HW HF; inversion HF; subst; cbn [hfold foldM]; [apply gives_ret|].
  apply gives_bind; [apply transform_gives; auto|]. intros h' q S D E. apply IH; [eapply same_word; eauto|].
  eapply Forall2_impl'; [|eassumption]. intros a b Hab. eapply same_wf; eauto.
Qed.
Lemma get_text_gives U h s ext EXT d D : view_entries h ext = Ok EXT -> view_dict h d = Ok D -> gives U h (hget_text U s ext d) (get_text U s EXT D).
Proof.
  intros HE HD. unfold hget_text, get_text, base_form_of.
  assert (HG := entries_dget h ext EXT (s_id s) HE).
  assert (B : exists x, does U h (match dget str_eqb (s_id s) ext with Some f => ret f | None => hget_word d (s_id s) end)
      (fun h' r => h' = h /\ r = x) /\ match x, match dget str_eqb (s_id s) EXT with Some F => Ok F | None => get_word D (s_id s) end with
      | Ok f, Ok F => view_wordform h f = Ok F | Err e, Err e' => e = e' | _, _ => False end).
  { destruct (dget str_eqb (s_id s) ext) as [f|].
    - destruct HG as (F & HF & ->). exists (Ok f). split; [|exact HF]. intro I. cbn. split; [exact I|]. split; [apply same_refl|]. split; [apply sd_eq; reflexivity|auto].
    - rewrite HG. unfold view_dict in HD. destruct (deref (h_dicts h) d) as [D0|] eqn:ED; [|discriminate]. cbn [bind] in HD.
      exists (match dget str_eqb (s_id s) D0 with None => Err (NoWordsFoundError (s_id s)) | Some f => Ok f end). split.
      + intro I. unfold hget_word, reading. cbn [fst snd]. rewrite ED. cbn [bind]. split; [exact I|]. split; [apply same_refl|]. split; [apply sd_eq; reflexivity|auto].
      + unfold get_word. assert (HG2 := entries_dget h D0 D (s_id s) HD). destruct (dget str_eqb (s_id s) D0) as [f|].
        * destruct HG2 as (F & HF & ->). exact HF.
        * rewrite HG2. reflexivity. }
  destruct B as (x & Bx & Hx). unfold gives. eapply does_bind; [exact Bx| |].
  2:{ intros h' e _ _ [-> <-]. destruct (dget str_eqb (s_id s) EXT) as [F|]; cbn in Hx |- *.
      - destruct Hx. - destruct (get_word D (s_id s)); [destruct Hx|subst; reflexivity]. }
  intros h' f _ _ [-> <-]. 
  destruct (match dget str_eqb (s_id s) EXT with Some F => Ok F | None => get_word D (s_id s) end) as [F|e'] eqn:EF; [|destruct Hx]. cbn [bind].
  unfold list_properties.
  assert (HL := list_gives U h ext EXT (s_deps s) HE ([], []) ([], []) (conj eq_refl (Forall2_nil _))).
  eapply does_bind; [exact HL| |].
  2:{ intros h1 e S1 D1 He. destruct (foldM (list_properties_step EXT) (s_deps s) ([], [])); [destruct He|subst; reflexivity]. }
  intros h1 pe S1 D1 Hpe. destruct (foldM (list_properties_step EXT) (s_deps s) ([], [])) as [pe'|] eqn:EP; [|destruct Hpe]. destruct Hpe as [P1 P2]. cbn [bind].
  assert (HF1 := same_wf _ _ _ _ S1 Hx). destruct (proj1 (view_wordform_iff _ _ _) HF1) as (o & W & Ho & HW & EFo).
  destruct (proj1 (view_word_iff _ _ _) HW) as (ow & l & How & Hl & EW).
  match goal with |- does U h1 _ (fun _ x => x = ?r) => change (gives U h1 (b <~ reading (fun h => deref (h_wordforms h) f) ;;
     w <~ reading (fun h => deref (h_words h) (hf_word b)) ;;
     let properties := clone (hf_props b) (fst pe ++ [AProps (hw_props w)]) in
     fp <~ hfold (fun fp f => htransform U (hf_word b) fp f) (snd pe) properties ;;
     reading (fun h => W <- view_word h (hf_word b) ;; get_form U W fp)) r);
     apply (gives_eq _ _ _ (bind (Ok o) (fun _ => bind (Ok ow) (fun _ => r)))); [reflexivity|] end.
  apply gives_bind. { apply gives_read; cbn beta; unfold deref; rewrite Ho; reflexivity. }
  intros h2 o' S2 D2 E2. injection E2 as <-.
  assert (HW2 := same_word _ _ _ _ S2 HW).
  apply gives_inv. intro I2. destruct (s_words _ _ S2 _ _ How) as (ow2 & How2 & T1 & T2 & T3).
  apply (gives_eq _ _ _ (bind (Ok ow2) (fun _ => form_properties <- foldM (fun fp external => transform U (wf_word F) fp external) (snd pe') (clone (wf_props F) (fst pe' ++ [AProps (w_props (wf_word F))])) ;;
      get_form U (wf_word F) form_properties))); [reflexivity|].
  apply gives_bind. { apply gives_read; cbn beta; unfold deref; rewrite How2; reflexivity. }
  intros h3 o3 S3 D3 E3. injection E3 as <-.
  assert (HW3 := same_word _ _ _ _ S3 HW2). assert (EWF : wf_word F = W) by (rewrite EFo; reflexivity).
  apply gives_bind.
  { rewrite EWF. assert (EC : clone (wf_props F) (fst pe' ++ [AProps (w_props W)]) = clone (hf_props o) (fst pe ++ [AProps (hw_props ow2)])).
    { rewrite EFo, EW, P1, T3. reflexivity. }
    rewrite EC. apply transforms_gives; [exact HW3|]. eapply Forall2_impl'; [|exact P2]. intros a b Hab. eapply same_wf; [|exact Hab]. eapply same_trans; eauto. }
  intros h4 fp S4 D4 E4. apply gives_read; cbn beta; rewrite (same_word _ _ _ _ S4 HW3), EWF; reflexivity.
Qed.
Lemma hmap_gives {A B} U (f : A -> M B) (g : A -> result B) l : forall h, (forall a h', In a l -> same h h' -> same_dicts h h' -> gives U h' (f a) (g a)) -> gives U h (hmap f l) (mapM g l).
Proof.
  induction l as [|a l IH]; intros h H; cbn [hmap mapM]; [apply gives_ret|].
  apply gives_bind. { apply H; [left; reflexivity|apply same_refl|apply sd_eq; reflexivity]. }
  intros h1 b S1 D1 E1. apply gives_bind.
  { apply IH. intros a' h' Ha S D. apply H; [right; exact Ha|eapply same_trans; eauto|eapply sd_trans; eauto]. }
  intros h2 bs S2 D2 E2. apply gives_ret.
Qed.
Lemma substitute_gives U h t ext EXT d D : view_entries h ext = Ok EXT -> view_dict h d = Ok D -> gives U h (hsubstitute U t ext d) (substitute U t EXT D).
Proof.
  intros HE HD. unfold hsubstitute, substitute. apply gives_bind.
  - apply hmap_gives. intros s h' _ S SD. apply get_text_gives; [eapply same_entries; eauto|eapply same_dict; eauto].
  - intros h' texts S SD E. apply gives_lift.
Qed.

(** ** making objects *)
Lemma nth_app_old {A} (l l' : list A) i a : nth_error l i = Some a -> nth_error (l ++ l') i = Some a.
Proof. intro H. rewrite nth_error_app1; [exact H|]. apply nth_error_Some. congruence. Qed.
Lemma nth_app_new {A} (l : list A) x i a : nth_error (l ++ [x]) i = Some a -> nth_error l i = Some a \/ (i = length l /\ a = x).
Proof.
  intro H. destruct (Nat.lt_ge_cases i (length l)) as [Hl|Hl].
  - left. rewrite nth_error_app1 in H by exact Hl. exact H.
  - right. rewrite nth_error_app2 in H by exact Hl. destruct (i - length l) as [|n] eqn:E; cbn in H.
    + injection H as <-. split; [lia|reflexivity].
    + destruct n; discriminate.
Qed.
Lemma nth_app_last {A} (l : list A) x : nth_error (l ++ [x]) (length l) = Some x.
Proof. rewrite nth_error_app2, Nat.sub_diag; [reflexivity|apply Nat.le_refl]. Qed.

Ltac same_tac := constructor; cbn; intros; [|eexists; split; [|split; [|split]; reflexivity]..]; eauto using nth_app_old.
(** the parts of the invariant that survive when old objects look the same *)
Lemma inv_same U h h' : Inv U h -> same h h' ->
  (forall w o, nth_error (h_words h') w = Some o -> nth_error (h_words h) w = Some o \/ exists l, nth_error (h_lists h') (hw_list o) = Some l /\ is_word (mkword o l) /\ hw_syllables o = None /\ hw_fluent o = None) ->
  (forall f o, nth_error (h_wordforms h') f = Some o -> nth_error (h_wordforms h) f = Some o \/ exists W, view_word h' (hf_word o) = Ok W /\ is_wordform (mkwf o W) /\ hf_form o = None /\ hf_cluster o = None) ->
  (forall d D, nth_error (h_dicts h') d = Some D -> nth_error (h_dicts h) d = Some D \/ exists V, view_entries h' D = Ok V) ->
  (h_integers h' = h_integers h \/ forall l, h_integers h' = Some l -> forall n, in_cache_range n = true -> exists r, nth_error l (Z.to_nat n) = Some r /\ view_wordform h' r = construct_integer_raw n) ->
  Inv U h'.
Proof.
  intros I S Hw Hf Hd Hi. constructor.
  - intros w o H. destruct (Hw _ _ H) as [H0|(l & Hl & HW & E1 & E2)].
    + destruct (i_words _ _ I _ _ H0) as (l & Hl & R). exists l. split; [apply (s_lists _ _ S); exact Hl|exact R].
    + exists l. rewrite E1, E2. repeat split; auto; try discriminate; apply HW.
  - intros f o H. destruct (Hf _ _ H) as [H0|(W & HW & HF & E1 & E2)].
    + destruct (i_wfs _ _ I _ _ H0) as (W & HW & R). exists W. split; [eapply same_word; eauto|exact R].
    + exists W. rewrite E1, E2. repeat split; auto; discriminate.
  - intros d D H. destruct (Hd _ _ H) as [H0|H0]; [|exact H0]. destruct (i_dicts _ _ I _ _ H0) as (V & HV). exists V. eapply same_entries; eauto.
  - destruct Hi as [Hi|Hi]; [|exact Hi]. rewrite Hi. intros l H n Hn. destruct (i_ints _ _ I _ H n Hn) as (r & Hr & HF). exists r. split; [exact Hr|].
    rewrite raw_ok in *. eapply same_wf; eauto.
Qed.

Lemma new_list_does U h l : does U h (new_list l) (fun h' x => exists r, x = Ok r /\ nth_error (h_lists h') r = Some l /\ forall w, ~ built_on h' w r).
Proof.
  intro I. cbn [new_list fst snd]. set (h' := set_lists h (h_lists h ++ [l])).
  assert (S : same h h') by same_tac.
  split. { apply (inv_same U h h' I S); cbn; intros; auto. }
  split; [exact S|]. split; [apply sd_eq; reflexivity|]. exists (length (h_lists h)). split; [reflexivity|]. split; [apply nth_app_last|].
  intros w (o & Ho & E). cbn in Ho. destruct (i_words _ _ I _ _ Ho) as (l0 & Hl0 & _). rewrite E in Hl0.
  assert (length (h_lists h) < length (h_lists h)) by (apply nth_error_Some; congruence). lia.
Qed.
Lemma new_word_does U h t r p : is_properties p ->
  does U h (new_word t r p) (fun h' x => forall l, nth_error (h_lists h) r = Some l ->
    match Word t l p with Ok W => exists w, x = Ok w /\ view_word h' w = Ok W /\ built_on h' w r /\ nth_error (h_words h) w = None | Err e => h' = h /\ x = Err e end).
Proof.
  intros Hp I. unfold new_word, deref. destruct (nth_error (h_lists h) r) as [l|] eqn:Hl; cbn [bind].
  2:{ cbn. split; [exact I|]. split; [apply same_refl|]. split; [apply sd_eq; reflexivity|discriminate]. }
  destruct (Word t l p) as [W|e] eqn:EW; cbn [fst snd].
  2:{ cbn. split; [exact I|]. split; [apply same_refl|]. split; [apply sd_eq; reflexivity|]. intros l0 H. injection H as <-. rewrite EW. auto. }
  set (h' := set_words h _).
  assert (S : same h h') by same_tac.
  assert (EW' : W = {| w_type := t; w_forms := l; w_props := p |}) by (unfold Word in EW; destruct (Nat.eqb _ _); congruence).
  split. { apply (inv_same U h h' I S); cbn; auto. intros w o H. apply nth_app_new in H. destruct H as [H|[-> ->]]; [auto|]. right. exists l. cbn.
    split; [exact Hl|]. split; [|auto]. split; [exact Hp|]. cbn. rewrite EW, EW'. reflexivity. }
  split; [exact S|]. split; [apply sd_eq; reflexivity|]. intros l0 H. injection H as <-. rewrite EW.
  exists (length (h_words h)). split; [reflexivity|]. split; [|split].
  - apply view_word_iff. eexists. exists l. cbn. split; [apply nth_app_last|]. split; [exact Hl|]. exact EW'.
  - eexists. cbn. split; [apply nth_app_last|reflexivity].
  - apply nth_error_None. apply Nat.le_refl.
Qed.
Lemma new_wordform_does U h w W p fp : (forall q, p = Some q -> is_properties q) -> (forall q, fp = Some q -> is_properties q) -> view_word h w = Ok W ->
  does U h (new_wordform w p fp) (fun h' x => exists f, x = Ok f /\ view_wordform h' f = Ok (WordForm W p fp) /\ h_dicts h' = h_dicts h /\ nth_error (h_wordforms h) f = None).
Proof.
  intros Hp Hfp HW I. unfold new_wordform. assert (HW0 := HW). apply view_word_iff in HW. destruct HW as (o & l & Ho & Hl & EW). unfold deref. rewrite Ho. cbn [fst snd].
  set (h' := set_wordforms h _).
  assert (S : same h h') by same_tac.
  assert (HW' := same_word _ _ _ _ S HW0).
  split. { apply (inv_same U h h' I S); cbn; auto. intros f F H. apply nth_app_new in H. destruct H as [H|[-> ->]]; [auto|]. right. exists W. cbn.
    split; [exact HW'|]. split; [|auto]. exists W, p, fp. split; [eapply inv_word; eauto|]. repeat split; auto. subst W. reflexivity. }
  split; [exact S|]. split; [apply sd_eq; reflexivity|]. exists (length (h_wordforms h)). split; [reflexivity|]. split; [|split; [reflexivity|apply nth_error_None; apply Nat.le_refl]].
  apply view_wordform_iff. eexists. exists W. cbn. split; [apply nth_app_last|]. split; [exact HW'|]. subst W. reflexivity.
Qed.
Lemma new_dict_does U h : does U h new_dict (fun h' x => exists d, x = Ok d /\ view_dict h' d = Ok [] /\ nth_error (h_dicts h) d = None).
Proof.
  intro I. cbn [new_dict fst snd]. set (h' := set_dicts h (h_dicts h ++ [[]])).
  assert (S : same h h') by same_tac.
  split. { apply (inv_same U h h' I S); cbn; auto. intros d D H. apply nth_app_new in H. destruct H as [H|[-> ->]]; [auto|]. right. exists []. reflexivity. }
  split; [exact S|]. split; [exists [[]]; split; [reflexivity|intros D [<-|[]]; reflexivity]|]. exists (length (h_dicts h)). split; [reflexivity|]. split; [|apply nth_error_None; apply Nat.le_refl].
  unfold view_dict, deref. cbn. rewrite nth_app_last. reflexivity.
Qed.

(** ** add_word *)
Definition same_dicts_but (d : ref) (h h' : heap) : Prop := forall e, e <> d -> nth_error (h_dicts h') e = nth_error (h_dicts h) e \/ (nth_error (h_dicts h) e = None /\ nth_error (h_dicts h') e = Some []).
Lemma sdb_of d h h' : same_dicts h h' -> same_dicts_but d h h'.
Proof.
  intros (m & E & F) e _. rewrite E. destruct (Nat.lt_ge_cases e (length (h_dicts h))) as [H|H].
  - left. apply nth_error_app1. exact H.
  - rewrite nth_error_app2 by exact H. destruct (nth_error m (e - length (h_dicts h))) as [D|] eqn:En.
    + right. split; [apply nth_error_None; exact H|]. rewrite (F D); [reflexivity|]. eapply nth_error_In; eauto.
    + left. symmetry. apply nth_error_None. exact H.
Qed.
Lemma sdb_trans d a b c : same_dicts_but d a b -> same_dicts_but d b c -> same_dicts_but d a c.
Proof. intros H1 H2 e He. destruct (H1 e He) as [A|[A B]], (H2 e He) as [C|[C D]]; [left; congruence|right; split; congruence|right; split; congruence|congruence]. Qed.
Definition adds {A} (U : unicode) (h : heap) (d : ref) (m : M A) (D' : dictionary) (r : result A) : Prop :=
  Inv U h -> Inv U (fst (m h)) /\ same h (fst (m h)) /\ same_dicts_but d h (fst (m h)) /\ view_dict (fst (m h)) d = Ok D' /\ snd (m h) = r.

Lemma view_dset h D V t f F : view_entries h D = Ok V -> view_wordform h f = Ok F -> view_entries h (dset str_eqb t f D) = Ok (dset str_eqb t F V).
Proof.
  intros HV HF. revert V HV. unfold view_entries. induction D as [|[t' g] D IH]; intros V HV; cbn [mapM] in HV.
  - injection HV as <-. cbn [dset mapM]. unfold view_entry. cbn [fst snd]. rewrite HF. reflexivity.
  - unfold view_entry at 1 in HV. cbn [fst snd] in HV. destruct (view_wordform h g) as [G|] eqn:EG; [|discriminate]. cbn [bind] in HV.
    destruct (mapM (view_entry h) D) as [V'|] eqn:EV; [|discriminate]. cbn [bind] in HV. injection HV as <-. cbn [dset].
    destruct (str_eqb t t').
    + cbn [mapM]. unfold view_entry at 1. cbn [fst snd]. rewrite HF. cbn [bind]. rewrite EV. reflexivity.
    + cbn [mapM]. unfold view_entry at 1. cbn [fst snd]. rewrite EG. cbn [bind]. rewrite (IH _ eq_refl). reflexivity.
Qed.
Lemma register_does U h d D t f F : Inv U h -> view_dict h d = Ok D -> view_wordform h f = Ok F ->
  Inv U (register d t f h) /\ same h (register d t f h) /\ same_dicts_but d h (register d t f h) /\ view_dict (register d t f h) d = Ok (dset str_eqb t F D).
Proof.
  intros I HD HF. unfold view_dict, deref in HD. destruct (nth_error (h_dicts h) d) as [D0|] eqn:E0; [|discriminate]. cbn [bind] in HD.
  unfold register. rewrite E0. set (h' := set_dicts h _).
  assert (S : same h h') by same_tac.
  assert (HV : view_entries h' (dset str_eqb t f D0) = Ok (dset str_eqb t F D)).
  { eapply same_entries; [exact S|]. apply view_dset; auto. }
  split; [|split; [exact S|split]].
  - apply (inv_same U h h' I S); cbn; auto. intros e D1. rewrite (nth_set_cases _ _ _ _ _ E0). destruct (Nat.eqb_spec e d) as [->|]; [|auto].
    intro H. injection H as <-. right. eauto.
  - intros e Hne. left. cbn. rewrite (nth_set_cases _ _ _ _ _ E0). destruct (Nat.eqb_spec e d); [contradiction|reflexivity].
  - unfold view_dict, deref. cbn. rewrite (nth_set_cases _ _ _ _ _ E0), Nat.eqb_refl. exact HV.
Qed.
Lemma key_props_ok k : is_properties (key_props k).
Proof. apply new_properties. intros d H. apply in_map_iff in H. destruct H as ([p|] & E & _); discriminate. Qed.

Lemma adds_intro {A B} U h d (m : M A) (k : A -> M B) Q D D' r : view_dict h d = Ok D -> does U h m Q ->
  (forall h' a, same h h' -> Q h' (Ok a) -> view_dict h' d = Ok D -> adds U h' d (k a) D' r) ->
  (forall h' e, Q h' (Err e) -> D' = D /\ r = Err e) -> adds U h d (hbind m k) D' r.
Proof.
  intros HD Hm Hk He I. destruct (Hm I) as (I1 & S1 & D1 & Q1). unfold hbind. destruct (m h) as [h1 [a|e]]; cbn [fst snd] in *.
  - destruct (Hk h1 a S1 Q1 (same_dict _ _ _ _ S1 D1 HD) I1) as (I2 & S2 & D2 & V2 & R2).
    split; [exact I2|]. split; [eapply same_trans; eauto|]. split; [|auto]. eapply sdb_trans; [apply sdb_of; exact D1|exact D2].
  - destruct (He _ _ Q1) as [-> ->]. split; [exact I1|]. split; [exact S1|]. split; [apply sdb_of; exact D1|]. split; [eapply same_dict; eauto|reflexivity].
Qed.
Lemma adds_gives {A B} U h d (m : M A) (k : A -> M B) x D D' r : view_dict h d = Ok D -> gives U h m x ->
  (forall h' a, same h h' -> x = Ok a -> view_dict h' d = Ok D -> adds U h' d (k a) D' r) ->
  (forall e, x = Err e -> D' = D /\ r = Err e) -> adds U h d (hbind m k) D' r.
Proof. intros HD Hm Hk He. eapply adds_intro; [exact HD|exact Hm| |]; cbn; intros; [eapply Hk; eauto|eapply He; eauto]. Qed.

Lemma add_form_adds U h d D w W i : view_dict h d = Ok D -> view_word h w = Ok W ->
  adds U h d (hadd_form U d w i) (match (k <- py_nth (INVERTED_WORDS_CACHES (w_type W)) i ;; add_form U D (WordForm W (Some (key_props k)) None)) with Ok D' => D' | Err _ => D end)
    (match (k <- py_nth (INVERTED_WORDS_CACHES (w_type W)) i ;; add_form U D (WordForm W (Some (key_props k)) None)) with Ok _ => Ok tt | Err e => Err e end).
Proof.
  intros HD HW. unfold hadd_form. destruct (proj1 (view_word_iff _ _ _) HW) as (o & l & Ho & Hl & EW).
  eapply (adds_gives U h d _ _ (Ok o)); [exact HD|apply gives_read; cbn beta; unfold deref; rewrite Ho; reflexivity| |discriminate].
  intros h1 o1 S1 E1 HD1. injection E1 as <-. assert (HW1 := same_word _ _ _ _ S1 HW).
  assert (ET : hw_type o = w_type W) by (rewrite EW; reflexivity). rewrite ET.
  eapply adds_gives; [exact HD1|apply gives_lift| |].
  2:{ intros e E. rewrite E. cbn [bind]. auto. }
  intros h2 k S2 E2 HD2. rewrite E2. cbn [bind]. assert (HW2 := same_word _ _ _ _ S2 HW1).
  set (F := WordForm W (Some (key_props k)) None).
  eapply adds_intro; [exact HD2|apply (new_wordform_does U h2 w W); [|discriminate|exact HW2]| |].
  { intros q Eq. injection Eq as <-. apply key_props_ok. }
  2:{ intros h' e (f & E & _). discriminate. }
  intros h3 f S3 (f0 & E & HF & _) HD3. injection E as <-. fold F in HF.
  unfold add_form. fold F.
  eapply adds_gives; [exact HD3|apply text_gives; exact HF| |].
  2:{ intros e E. rewrite E. cbn [bind]. auto. }
  intros h4 t S4 E4 HD4. rewrite E4. cbn [bind]. assert (HF4 := same_wf _ _ _ _ S4 HF).
  unfold view_dict in HD4. destruct (deref (h_dicts h4) d) as [D0|] eqn:E0; [|discriminate]. cbn [bind] in HD4.
  assert (HD4' : view_dict h4 d = Ok D) by (unfold view_dict; rewrite E0; exact HD4).
  eapply (adds_gives U h4 d _ _ (Ok D0)); [exact HD4'|apply gives_read; cbn beta; exact E0| |discriminate].
  intros h5 D5 S5 E5 HD5. injection E5 as <-. assert (HF5 := same_wf _ _ _ _ S5 HF4).
  assert (HG := entries_dget h5 D0 D t (same_entries _ _ _ _ S5 HD4)).
  destruct (dget str_eqb t D0) as [g|].
  - destruct HG as (G & HG & ->).
    eapply (adds_gives U h5 d _ _ (Ok F)); [exact HD5|apply gives_read; cbn beta; exact HF5| |discriminate].
    intros h6 F6 S6 E6 HD6. injection E6 as <-. assert (HG6 := same_wf _ _ _ _ S6 HG).
    eapply (adds_gives U h6 d _ _ (Ok G)); [exact HD6|apply gives_read; cbn beta; exact HG6| |discriminate].
    intros h7 G7 S7 E7 HD7. injection E7 as <-. assert (HF7 := same_wf _ _ _ _ (same_trans _ _ _ S6 S7) HF5).
    destruct (replaces F G).
    + intro I. destruct (register_does U h7 d D t f F I HD7 HF7) as (A1 & A2 & A3 & A4). cbn. auto.
    + intro I. cbn. split; [exact I|]. split; [apply same_refl|]. split; [intros e _; left; reflexivity|auto].
  - rewrite HG. intro I. destruct (register_does U h5 d D t f F I HD5 HF5) as (A1 & A2 & A3 & A4). cbn. auto.
Qed.
Lemma add_forms_adds U w W d is : forall h D, view_dict h d = Ok D -> view_word h w = Ok W ->
  adds U h d (hfold (fun _ i => hadd_form U d w i) is tt) (fst (add_forms U D W is)) (snd (add_forms U D W is)).
Proof.
  induction is as [|i is IH]; intros h D HD HW; cbn [hfold add_forms].
  - intro I. cbn. split; [exact I|]. split; [apply same_refl|]. split; [intros e _; left; reflexivity|auto].
  - intro I. destruct (add_form_adds U h d D w W i HD HW I) as (I1 & S1 & D1 & V1 & R1). unfold hbind.
    destruct (k <- py_nth (INVERTED_WORDS_CACHES (w_type W)) i ;; add_form U D (WordForm W (Some (key_props k)) None)) as [D'|e] eqn:EQ.
    + destruct (hadd_form U d w i h) as [h1 r1]. cbn [fst snd] in *. subst r1.
      destruct (IH h1 D' V1 (same_word _ _ _ _ S1 HW) I1) as (I2 & S2 & D2 & V2 & R2).
      split; [exact I2|]. split; [eapply same_trans; eauto|]. split; [|auto]. eapply sdb_trans; eauto.
    + destruct (hadd_form U d w i h) as [h1 r1]. cbn [fst snd] in *. subst r1. cbn [fst snd]. auto.
Qed.
Lemma add_word_adds U h d D w W : view_dict h d = Ok D -> view_word h w = Ok W ->
  adds U h d (hadd_word U d w) (fst (add_word U D W)) (snd (add_word U D W)).
Proof.
  intros HD HW. unfold hadd_word, add_word. destruct (proj1 (view_word_iff _ _ _) HW) as (o & l & Ho & Hl & EW).
  eapply (adds_gives U h d _ _ (Ok l)); [exact HD|apply gives_read; cbn beta; unfold deref; rewrite Ho; cbn [bind]; rewrite Hl; reflexivity| |discriminate].
  intros h1 l1 S1 E1 HD1. injection E1 as <-. assert (HW1 := same_word _ _ _ _ S1 HW).
  replace (w_forms W) with l by (rewrite EW; reflexivity). apply add_forms_adds; assumption.
Qed.

(** ** integers *)
Lemma Forall2_nth_l {A B} (R : A -> B -> Prop) l l' i a : Forall2 R l l' -> nth_error l i = Some a -> exists b, nth_error l' i = Some b /\ R a b.
Proof. intro H. revert i. induction H as [|x y l l' HR _ IH]; intros [|i] Hi; cbn in *; try discriminate; [injection Hi as <-; eauto|auto]. Qed.
Lemma integer_raw_does U h n : does U h (h_construct_integer_raw n) (fun h' x => exists f, x = Ok f /\ view_wordform h' f = construct_integer_raw n /\ nth_error (h_wordforms h) f = None).
Proof.
  unfold h_construct_integer_raw. eapply does_bind; [apply new_list_does| |].
  2:{ intros h' e _ _ (r & E & _). discriminate. }
  intros h1 l S1 D1 (r & E & Hl & _). injection E as <-.
  eapply does_bind; [apply new_word_does; apply integer_properties_ok| |].
  2:{ intros h' e _ _ H. specialize (H _ Hl). exfalso. change (match Word WT_INTEGER [str_of_Z n] (integer_properties n) with Ok W => exists w, Err e = Ok w /\ view_word h' w = Ok W /\ built_on h' w l /\ nth_error (h_words h1) w = None | Err e0 => h' = h1 /\ Err e = @Err ref e0 end) in H.
      assert (EW := raw_ok n). unfold construct_integer_raw in EW. destruct (Word WT_INTEGER [str_of_Z n] (integer_properties n)); [|discriminate]. destruct H as (w & Ew & _). discriminate. }
  intros h2 w S2 D2 H. specialize (H _ Hl).
  assert (EW := raw_ok n). assert (ER : construct_integer_raw n = bind (Word WT_INTEGER [str_of_Z n] (integer_properties n)) (fun w => Ok (WordForm w None None))) by reflexivity.
  destruct (Word WT_INTEGER [str_of_Z n] (integer_properties n)) as [W|e] eqn:EWd; [|rewrite EW in ER; discriminate]. destruct H as (w' & Ew & HW & _). injection Ew as <-. cbn [bind] in ER.
  eapply does_conseq; [|apply (new_wordform_does U h2 w W None None); [discriminate|discriminate|exact HW]].
  intros h3 x (f & Ef & HF & _ & Hn). exists f. split; [exact Ef|]. split; [rewrite HF, ER; reflexivity|].
  assert (S := same_trans _ _ _ S1 S2). destruct (nth_error (h_wordforms h) f) as [o|] eqn:Eo; [|reflexivity].
  destruct (s_wfs _ _ S _ _ Eo) as (o' & Ho' & _). congruence.
Qed.
Lemma integers_does U is : forall h, does U h (hmap (fun i => h_construct_integer_raw (Z.of_nat i + CACHE_LEFT)) is)
  (fun h' x => exists l, x = Ok l /\ Forall2 (fun i r => view_wordform h' r = construct_integer_raw (Z.of_nat i + CACHE_LEFT)) is l).
Proof.
  induction is as [|i is IH]; intros h; cbn [hmap].
  - intro I. cbn. split; [exact I|]. split; [apply same_refl|]. split; [apply sd_eq; reflexivity|]. exists []. auto.
  - eapply does_bind; [apply integer_raw_does| |].
    2:{ intros h' e _ _ (f & E & _). discriminate. }
    intros h1 f S1 D1 (f' & E & HF & _). injection E as <-.
    eapply does_bind; [apply IH| |].
    2:{ intros h' e _ _ (l & E & _). discriminate. }
    intros h2 l S2 D2 (l' & E & HL). injection E as <-.
    intro I. cbn. split; [exact I|]. split; [apply same_refl|]. split; [apply sd_eq; reflexivity|]. exists (f :: l). split; [reflexivity|]. constructor; [|exact HL].
    rewrite raw_ok in *. eapply same_wf; eauto.
Qed.
Lemma construct_integer_does U h n : does U h (hconstruct_integer n) (fun h' x => exists f, x = Ok f /\ view_wordform h' f = construct_integer_raw n).
Proof.
  unfold hconstruct_integer. destruct (in_cache_range n) eqn:En.
  2:{ eapply does_conseq; [|apply integer_raw_does]. intros h' x (f & E & HF & _). eauto. }
  assert (G : forall Q : heap -> result ref -> Prop, does U h (match h_integers h with
      | Some l => lift (py_nth l (Z.to_nat n))
      | None => l <~ hmap (fun i => h_construct_integer_raw (Z.of_nat i + CACHE_LEFT)) (seq 0 (Z.to_nat (CACHE_RIGHT - CACHE_LEFT + 1))) ;;
              _ <~ modify (fun h => set_integers h (Some l)) ;; lift (py_nth l (Z.to_nat n)) end) Q ->
      does U h (c <~ reading (fun h => Ok (h_integers h)) ;; match c with
      | Some l => lift (py_nth l (Z.to_nat n))
      | None => l <~ hmap (fun i => h_construct_integer_raw (Z.of_nat i + CACHE_LEFT)) (seq 0 (Z.to_nat (CACHE_RIGHT - CACHE_LEFT + 1))) ;;
              _ <~ modify (fun h => set_integers h (Some l)) ;; lift (py_nth l (Z.to_nat n)) end) Q).
  { intros Q H I. exact (H I). }
  apply G. clear G. destruct (h_integers h) as [l|] eqn:Ei.
  - intro I. cbn [lift fst snd]. split; [exact I|]. split; [apply same_refl|]. split; [apply sd_eq; reflexivity|].
    destruct (i_ints _ _ I _ Ei n En) as (r & Hr & HF). exists r. split; [apply py_nth_ok; exact Hr|exact HF].
  - eapply does_bind; [apply integers_does| |].
    2:{ intros h' e _ _ (l & E & _). discriminate. }
    intros h1 l0 S1 D1 (l & E & HL). injection E as <-.
    assert (HN : forall m, in_cache_range m = true -> exists r, nth_error l0 (Z.to_nat m) = Some r /\ view_wordform h1 r = construct_integer_raw m).
    { intros m Hm. unfold in_cache_range in Hm. apply andb_true_iff in Hm. destruct Hm as [H1 H2]. apply Z.leb_le in H1, H2. unfold CACHE_LEFT, CACHE_RIGHT in *.
      assert (Hs : nth_error (seq 0 (Z.to_nat (10000 - 0 + 1))) (Z.to_nat m) = Some (Z.to_nat m)).
      { rewrite nth_error_nth' with (d := 0) by (rewrite seq_length; lia). rewrite seq_nth by lia. reflexivity. }
      destruct (Forall2_nth_l _ _ _ _ _ HL Hs) as (r & Hr & HF). exists r. split; [exact Hr|]. rewrite HF. f_equal. lia. }
    intro I. cbn [modify hbind lift fst snd]. set (h2 := set_integers h1 (Some l0)).
    assert (S2 : same h1 h2) by same_tac.
    assert (HN2 : forall m, in_cache_range m = true -> exists r, nth_error l0 (Z.to_nat m) = Some r /\ view_wordform h2 r = construct_integer_raw m).
    { intros m Hm. destruct (HN m Hm) as (r & Hr & HF). exists r. split; [exact Hr|]. rewrite raw_ok in *. eapply same_wf; eauto. }
    split; [|split; [exact S2|split; [apply sd_eq; reflexivity|]]].
    + apply (inv_same U h1 h2 I S2); cbn; auto. right. intros l1 H. injection H as <-. exact HN2.
    + destruct (HN2 n En) as (r & Hr & HF). exists r. split; [apply py_nth_ok; exact Hr|exact HF].
Qed.

(** ** changing lists *)
Lemma list_set_twice {A} (l : list A) i x y : list_set i x (list_set i y l) = list_set i x l.
Proof. revert i. induction l as [|a l IH]; intros [|i]; cbn; [reflexivity..|rewrite IH; reflexivity]. Qed.
Lemma list_set_id {A} (l : list A) i x : nth_error l i = Some x -> list_set i x l = l.
Proof. revert i. induction l as [|a l IH]; intros [|i] H; cbn in *; try discriminate; [injection H as ->; reflexivity|rewrite IH by exact H; reflexivity]. Qed.
Lemma list_set_none {A} (l : list A) i x : nth_error l i = None -> list_set i x l = l.
Proof. revert i. induction l as [|a l IH]; intros [|i] H; cbn in *; try discriminate; [reflexivity..|rewrite IH by exact H; reflexivity]. Qed.

Lemma change_other h r l w W : view_word h w = Ok W -> ~ built_on h w r -> view_word (fst (change_list r l h)) w = Ok W.
Proof.
  intros H Hn. apply view_word_iff in H. destruct H as (o & l0 & Ho & Hl & ->). apply view_word_iff. exists o, l0. cbn. split; [exact Ho|]. split; [|reflexivity].
  destruct (nth_error (h_lists h) r) as [lr|] eqn:Er; [|rewrite list_set_none by exact Er; exact Hl].
  rewrite (nth_set_cases _ _ _ _ _ Er). destruct (Nat.eqb_spec (hw_list o) r) as [E|]; [|exact Hl]. exfalso. apply Hn. exists o. auto.
Qed.
Lemma change_built h r l w W : view_word h w = Ok W -> built_on h w r -> view_word (fst (change_list r l h)) w = Ok {| w_type := w_type W; w_forms := l; w_props := w_props W |}.
Proof.
  intros H (o' & Ho' & E). apply view_word_iff in H. destruct H as (o & l0 & Ho & Hl & ->). assert (o' = o) by congruence. subst o'. apply view_word_iff. exists o, l. cbn. split; [exact Ho|]. split; [|reflexivity].
  rewrite E in *. rewrite (nth_set_cases _ _ _ _ _ Hl), Nat.eqb_refl. reflexivity.
Qed.
Lemma change_wf_other h r l f F : view_wordform h f = Ok F -> (forall o, nth_error (h_wordforms h) f = Some o -> ~ built_on h (hf_word o) r) -> view_wordform (fst (change_list r l h)) f = Ok F.
Proof.
  intros H Hn. apply view_wordform_iff in H. destruct H as (o & W & Ho & HW & ->). apply view_wordform_iff. exists o, W. split; [exact Ho|]. split; [|reflexivity].
  apply change_other; [exact HW|]. apply Hn. exact Ho.
Qed.
Lemma change_entries h r l D V : (forall t f o, In (t, f) D -> nth_error (h_wordforms h) f = Some o -> ~ built_on h (hf_word o) r) ->
  view_entries h D = Ok V -> view_entries (fst (change_list r l h)) D = Ok V.
Proof.
  unfold view_entries. revert V. induction D as [|[t f] D IH]; intros V Hn H; [exact H|]. cbn [mapM] in *.
  unfold view_entry at 1 in H. unfold view_entry at 1. cbn [fst snd] in *. destruct (view_wordform h f) as [F|] eqn:E; [|discriminate].
  rewrite (change_wf_other h r l f F E) by (intros o Ho; apply (Hn t f o (or_introl eq_refl) Ho)). cbn [bind] in *.
  destruct (mapM (view_entry h) D) as [D'|] eqn:E'; [|discriminate]. rewrite (IH D'); [exact H| |reflexivity].
  intros t' f' o Hin. apply (Hn t' f' o). right. exact Hin.
Qed.
Lemma unremembered_dict h r d D t f o : unremembered h r -> nth_error (h_dicts h) d = Some D -> In (t, f) D -> nth_error (h_wordforms h) f = Some o -> ~ built_on h (hf_word o) r.
Proof. intros Hu Hd Hin Ho (w & Hw & E). destruct (Hu _ _ Hw E) as (_ & _ & H). destruct (H _ _ Ho eq_refl) as (_ & _ & K & _). exact (K _ _ _ Hd Hin). Qed.
Lemma is_word_length t l l' p : is_word {| w_type := t; w_forms := l; w_props := p |} -> length l' = length l -> is_word {| w_type := t; w_forms := l'; w_props := p |}.
Proof. intros [H1 H2] E. split; [exact H1|]. cbn in *. unfold Word in *. rewrite E. destruct (Nat.eqb (length l) (length (WORDS_CACHES t))); [reflexivity|discriminate]. Qed.
Lemma change_inv U h r l : Inv U h -> unremembered h r -> (forall l0 w, list_at h r l0 -> built_on h w r -> length l = length l0) -> Inv U (fst (change_list r l h)).
Proof.
  intros I Hu Hlen. constructor.
  - intros w o H. cbn in H. destruct (i_words _ _ I _ _ H) as (l0 & Hl0 & HW & Hs & Hf). cbn.
    destruct (nth_error (h_lists h) r) as [lr|] eqn:Er; [|rewrite list_set_none by exact Er; exists l0; auto].
    rewrite (nth_set_cases _ _ _ _ _ Er). destruct (Nat.eqb_spec (hw_list o) r) as [E|]; [|exists l0; auto].
    exists l. destruct (Hu _ _ H E) as (E1 & E2 & _). rewrite E1, E2. assert (lr = l0) by congruence. subst lr. split; [reflexivity|]. split; [|split; discriminate].
    eapply is_word_length; [exact HW|]. apply (Hlen l0 w); [exact Er|exists o; auto].
  - intros f o H. cbn in H. destruct (i_wfs _ _ I _ _ H) as (W & HW & R & Rf & Rc).
    assert (D : built_on h (hf_word o) r \/ ~ built_on h (hf_word o) r).
    { unfold built_on. destruct (nth_error (h_words h) (hf_word o)) as [ow|] eqn:E; [|right; intros (? & ? & ?); congruence].
      destruct (Nat.eq_dec (hw_list ow) r) as [El|El]; [left; eauto|right; intros (? & X & ?); congruence]. }
    destruct D as [B|B]; [|exists W; split; [apply change_other; assumption|auto]].
    eexists. split; [apply change_built; eassumption|]. destruct B as (ow & How & El). destruct (Hu _ _ How El) as (_ & _ & K). destruct (K _ _ H eq_refl) as (E1 & E2 & _). rewrite E1, E2.
    split; [|split; discriminate]. destruct R as (w0 & p & fp & Hw0 & Hp & Hfp & EF).
    assert (EW : W = w0) by (unfold WordForm, mkwf in EF; injection EF; auto). subst w0.
    exists {| w_type := w_type W; w_forms := l; w_props := w_props W |}, p, fp. split.
    { apply view_word_iff in HW. destruct HW as (ow' & l0 & How' & Hl0 & ->). assert (ow' = ow) by congruence. subst ow'. cbn. eapply is_word_length; [exact Hw0|].
      apply (Hlen l0 (hf_word o)); [unfold list_at; congruence|exists ow; auto]. }
    split; [exact Hp|]. split; [exact Hfp|]. unfold WordForm, mkwf in *. cbn [w_props] in *. injection EF as E3 E4. rewrite E3, E4. reflexivity.
  - intros d D H. cbn in H. destruct (i_dicts _ _ I _ _ H) as (V & HV). exists V. apply change_entries; [|exact HV]. intros t f o Hin Ho. eapply unremembered_dict; eauto.
  - intros li H n Hn. cbn in H. destruct (i_ints _ _ I _ H n Hn) as (x & Hx & HF). exists x. split; [exact Hx|]. rewrite raw_ok in *.
    apply change_wf_other; [exact HF|]. intros o Ho (w & Hw & E). destruct (Hu _ _ Hw E) as (_ & _ & K). destruct (K _ _ Ho eq_refl) as (_ & _ & _ & K'). apply (K' _ H). eapply nth_error_In; eauto.
Qed.
Lemma set_lists_same h l : l = h_lists h -> set_lists h l = h.
Proof. intros ->. destruct h. reflexivity. Qed.
Lemma autofill_items t r avail is : forall h l l', nth_error (h_lists h) r = Some l -> foldM (autofill_step t avail) is l = Ok l' ->
  hfold (fun _ i => autofill_item t r avail i) is tt h = (set_lists h (list_set r l' (h_lists h)), Ok tt).
Proof.
  induction is as [|i is IH]; intros h l l' Hl H; cbn [foldM hfold] in *.
  - injection H as <-. unfold ret. rewrite list_set_id by exact Hl. rewrite set_lists_same by reflexivity. reflexivity.
  - destruct (autofill_step t avail l i) as [l1|] eqn:E1; [|discriminate]. cbn [bind] in H.
    unfold hbind at 1. unfold autofill_item at 1. unfold hbind at 1, reading, deref. rewrite Hl. cbn [bind]. rewrite E1. cbn [change_list modify].
    rewrite (IH (set_lists h (list_set r l1 (h_lists h))) l1 l'); [|cbn; rewrite (nth_set_cases _ _ _ _ _ Hl), Nat.eqb_refl; reflexivity|exact H].
    cbn. rewrite list_set_twice. reflexivity.
Qed.
Lemma autofill_eq h w W W' : view_word h w = Ok W -> autofill_missed_forms W = Ok W' ->
  exists r, built_on h w r /\ autofill w h = (fst (change_list r (w_forms W') h), Ok tt) /\ w_type W' = w_type W /\ w_props W' = w_props W.
Proof.
  intros HW HA. apply view_word_iff in HW. destruct HW as (o & l & Ho & Hl & ->). exists (hw_list o). split; [exists o; auto|].
  unfold autofill_missed_forms, autofill_forms in HA. cbn [mkword w_type w_forms w_props] in HA.
  destruct (available_keys (hw_type o) l) as [avail|] eqn:EA; [|discriminate]. cbn [bind] in HA.
  destruct (foldM (autofill_step (hw_type o) avail) (seq 0 (length l)) l) as [l'|] eqn:EF; [|discriminate]. cbn [bind] in HA. injection HA as <-. split; [|split; reflexivity].
  unfold autofill. unfold hbind at 1, reading at 1, deref at 1. rewrite Ho. unfold hbind at 1, reading at 1, deref at 1. rewrite Hl.
  unfold hbind, lift. rewrite EA. rewrite (autofill_items _ _ _ _ h l l' Hl EF). reflexivity.
Qed.

(** ** deleting lazy attributes *)
Lemma forget_word_same h w g : (forall o, hw_type (g o) = hw_type o /\ hw_list (g o) = hw_list o /\ hw_props (g o) = hw_props o) -> same h (forget_in_word w g h).
Proof.
  intros G. unfold forget_in_word. destruct (nth_error (h_words h) w) as [o|] eqn:E; [|apply same_refl]. constructor; cbn; eauto.
  intros w0 o0 H. rewrite (nth_set_cases _ _ _ _ _ E). destruct (Nat.eqb_spec w0 w) as [->|]; [|eauto]. assert (o0 = o) by congruence. subst. exists (g o). split; [reflexivity|apply G].
Qed.
Lemma forget_wf_same h f g : (forall o, hf_word (g o) = hf_word o /\ hf_props (g o) = hf_props o /\ hf_form_props (g o) = hf_form_props o) -> same h (forget_in_wordform f g h).
Proof.
  intros G. unfold forget_in_wordform. destruct (nth_error (h_wordforms h) f) as [o|] eqn:E; [|apply same_refl]. constructor; cbn; eauto.
  intros w0 o0 H. rewrite (nth_set_cases _ _ _ _ _ E). destruct (Nat.eqb_spec w0 f) as [->|]; [|eauto]. assert (o0 = o) by congruence. subst. exists (g o). split; [reflexivity|apply G].
Qed.
Lemma forget_same h a : same h (fst (forget a h)).
Proof. destruct a; cbn [forget modify fst]; [apply forget_word_same|apply forget_word_same|apply forget_wf_same|apply forget_wf_same]; intros o; cbn; auto. Qed.
Lemma forget_dicts h a : h_dicts (fst (forget a h)) = h_dicts h /\ h_integers (fst (forget a h)) = h_integers h /\ h_lists (fst (forget a h)) = h_lists h.
Proof. destruct a; cbn [forget modify fst]; unfold forget_in_word, forget_in_wordform; destruct (nth_error _ _); cbn; auto. Qed.
(** what is left of an object: nothing but a lazy attribute is missing *)
Lemma forget_word_nth h v g w o : nth_error (h_words (forget_in_word v g h)) w = Some o -> nth_error (h_words h) w = Some o \/ exists o0, nth_error (h_words h) w = Some o0 /\ o = g o0 /\ v = w.
Proof.
  unfold forget_in_word. destruct (nth_error (h_words h) v) as [o1|] eqn:E; [|auto]. cbn. rewrite (nth_set_cases _ _ _ _ _ E).
  destruct (Nat.eqb_spec w v) as [->|]; [|auto]. intros [= <-]. eauto.
Qed.
Lemma forget_wf_nth h v g w o : nth_error (h_wordforms (forget_in_wordform v g h)) w = Some o -> nth_error (h_wordforms h) w = Some o \/ exists o0, nth_error (h_wordforms h) w = Some o0 /\ o = g o0 /\ v = w.
Proof.
  unfold forget_in_wordform. destruct (nth_error (h_wordforms h) v) as [o1|] eqn:E; [|auto]. cbn. rewrite (nth_set_cases _ _ _ _ _ E).
  destruct (Nat.eqb_spec w v) as [->|]; [|auto]. intros [= <-]. eauto.
Qed.
Lemma forget_word_wfs h v g : h_wordforms (forget_in_word v g h) = h_wordforms h.
Proof. unfold forget_in_word. destruct (nth_error _ _); reflexivity. Qed.
Lemma forget_wf_words h v g : h_words (forget_in_wordform v g h) = h_words h.
Proof. unfold forget_in_wordform. destruct (nth_error _ _); reflexivity. Qed.
Lemma forget_words h a w o : nth_error (h_words (fst (forget a h))) w = Some o -> exists o0, nth_error (h_words h) w = Some o0 /\ hw_type o = hw_type o0 /\ hw_list o = hw_list o0 /\ hw_props o = hw_props o0 /\
  (forall n, hw_syllables o = Some n -> hw_syllables o0 = Some n) /\ (forall n, hw_fluent o = Some n -> hw_fluent o0 = Some n).
Proof.
  destruct a; cbn [forget modify fst]; intros H.
  - apply forget_word_nth in H as [H|(o0 & H & -> & _)]; [exists o; auto 10|]. exists o0. cbn. repeat split; auto; discriminate.
  - apply forget_word_nth in H as [H|(o0 & H & -> & _)]; [exists o; auto 10|]. exists o0. cbn. repeat split; auto; discriminate.
  - rewrite forget_wf_words in H. exists o. auto 10.
  - rewrite forget_wf_words in H. exists o. auto 10.
Qed.
Lemma forget_wfs h a f o : nth_error (h_wordforms (fst (forget a h))) f = Some o -> exists o0, nth_error (h_wordforms h) f = Some o0 /\ hf_word o = hf_word o0 /\ hf_props o = hf_props o0 /\ hf_form_props o = hf_form_props o0 /\
  (forall n, hf_form o = Some n -> hf_form o0 = Some n) /\ (forall n, hf_cluster o = Some n -> hf_cluster o0 = Some n).
Proof.
  destruct a; cbn [forget modify fst]; intros H.
  - rewrite forget_word_wfs in H. exists o. auto 10.
  - rewrite forget_word_wfs in H. exists o. auto 10.
  - apply forget_wf_nth in H as [H|(o0 & H & -> & _)]; [exists o; auto 10|]. exists o0. cbn. repeat split; auto; discriminate.
  - apply forget_wf_nth in H as [H|(o0 & H & -> & _)]; [exists o; auto 10|]. exists o0. cbn. repeat split; auto; discriminate.
Qed.
Lemma forget_does U h a : gives U h (forget a) (Ok tt).
Proof.
  intro I. assert (S := forget_same h a). destruct (forget_dicts h a) as (ED & EI & EL). split; [|split; [exact S|split; [apply sd_eq, ED|destruct a; reflexivity]]].
  constructor.
  - intros w o H. apply forget_words in H. destruct H as (o0 & H & E1 & E2 & E3 & K1 & K2). destruct (i_words _ _ I _ _ H) as (l & Hl & HW & Hs & Hf).
    exists l. rewrite EL, E2. split; [exact Hl|]. split; [unfold mkword in *; rewrite E1, E3; exact HW|]. auto.
  - intros f o H. apply forget_wfs in H. destruct H as (o0 & H & E1 & E2 & E3 & K1 & K2). destruct (i_wfs _ _ I _ _ H) as (W & HW & HF & Hs & Hc).
    exists W. rewrite E1. split; [eapply same_word; eauto|]. assert (E : mkwf o W = mkwf o0 W) by (unfold mkwf; rewrite E2, E3; reflexivity). rewrite E. auto.
  - intros d D H. rewrite ED in H. destruct (i_dicts _ _ I _ _ H) as (V & HV). exists V. eapply same_entries; eauto.
  - intros l H n Hn. rewrite EI in H. destruct (i_ints _ _ I _ H n Hn) as (r & Hr & HF). exists r. split; [exact Hr|]. rewrite raw_ok in *. eapply same_wf; eauto.
Qed.
