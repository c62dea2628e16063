(** * PropHeap: C58-C61 - objects with identity: shared lists, cached attributes, the shared integers *)
From Coq Require Import Lia.
From Verif Require Import PyBase Relations Restrictions Logic Data Words Transformators Constructors Dictionary Templates Heap
  PyBaseFacts SpecProps PropsFacts SerFacts SpecSlots LookupFacts PropSlots WordFacts PropWords SpecDictionary DictFacts SpecSubstitution SubstFacts IntFacts PropIntegers SpecHeap HeapFacts ReachFacts KeepFacts.

(** ** C58: in every heap a careful program reaches, objects behave like the values they show.  [word_at h w W]: the object w
    looks like the value W in the heap h, and so on; the right-hand sides are the functions of the value model, which the
    other theorems speak about.  [unchanged]: nothing that existed looks different *)

(** what exists is well-formed *)
Theorem C58_well_formed : forall U h, reachable U h ->
  (forall w W, word_at h w W -> is_word W) /\ (forall f F, wordform_at h f F -> is_wordform F) /\
  (forall d D, dict_at h d D -> is_sequential_dictionary U D) /\ (forall ext EXT, externals_at h ext EXT -> NoDup (dkeys ext) -> good_externals EXT).
Proof.
  intros U h R. destruct (reachable_inv U h R) as [I G]. split; [intros w W; apply (inv_word U h w W I)|]. split; [intros f F; apply (inv_wf U h f F I)|]. split; [exact G|].
  intros ext EXT HE ND. unfold externals_at, view_entries in HE.
  assert (X : map fst EXT = map fst ext /\ forall name f, In (name, f) EXT -> is_wordform f).
  { clear ND. revert EXT HE. induction ext as [|[t f] ext IH]; intros EXT HE; cbn [mapM] in HE; [injection HE as <-; split; [reflexivity|intros ? ? []]|].
    unfold view_entry at 1 in HE. cbn [fst snd] in HE. destruct (view_wordform h f) as [F|] eqn:E; [|discriminate]. cbn [bind] in HE.
    destruct (mapM (view_entry h) ext) as [EXT'|] eqn:E'; [|discriminate]. cbn [bind] in HE. injection HE as <-. destruct (IH _ eq_refl) as [IH1 IH2]. cbn. rewrite IH1. split; [reflexivity|].
    intros name g [H|H]; [injection H as <- <-; exact (inv_wf U h f F I E)|eapply IH2; eauto]. }
  destruct X as [X1 X2]. split; [unfold dkeys in *; rewrite X1; exact ND|exact X2].
Qed.

Theorem C58_words : forall U h w W, reachable U h -> word_at h w W ->
  (snd (syllables w h) = number_of_syllables W /\ unchanged h (fst (syllables w h))) /\
  (snd (fluent w h) = has_fluent_vowel W /\ unchanged h (fst (fluent w h))) /\
  (snd (hnormal_form w h) = normal_form W /\ unchanged h (fst (hnormal_form w h))) /\
  (forall p, snd (form w p h) = word_form W p /\ unchanged h (fst (form w p h))).
Proof.
  intros U h w W R H. destruct (reachable_inv U h R) as [I _].
  destruct (syllables_gives U h w W H I) as (_ & S1 & D1 & E1). destruct (fluent_gives U h w W H I) as (_ & S2 & D2 & E2). destruct (normal_form_gives U h w W H I) as (_ & S3 & D3 & E3).
  split; [split; [exact E1|apply same_unchanged; auto]|]. split; [split; [exact E2|apply same_unchanged; auto]|]. split; [split; [exact E3|apply same_unchanged; auto]|].
  intro p. unfold form, reading. cbn [fst snd]. split; [unfold word_at in H; rewrite H; reflexivity|]. apply same_unchanged; [apply same_refl|apply sd_eq; reflexivity].
Qed.
Theorem C58_wordforms : forall U h f F, reachable U h -> wordform_at h f F ->
  (snd (text U f h) = wf_form U F /\ unchanged h (fst (text U f h))) /\
  (snd (cluster U f h) = starts_with_consonant_cluster U F /\ unchanged h (fst (cluster U f h))).
Proof.
  intros U h f F R H. destruct (reachable_inv U h R) as [I _]. destruct (text_gives U h f F H I) as (_ & S1 & D1 & E1). destruct (cluster_gives U h f F H I) as (_ & S2 & D2 & E2).
  split; split; auto using same_unchanged.
Qed.
Theorem C58_substitute : forall U h t ext EXT d D, reachable U h -> externals_at h ext EXT -> dict_at h d D ->
  snd (hsubstitute U t ext d h) = substitute U t EXT D /\ unchanged h (fst (hsubstitute U t ext d h)).
Proof.
  intros U h t ext EXT d D R HE HD. destruct (reachable_inv U h R) as [I _]. destruct (substitute_gives U h t ext EXT d D HE HD I) as (_ & S & SD & E). split; [exact E|apply same_unchanged; auto].
Qed.
Theorem C58_dictionaries : forall U h d D, reachable U h -> dict_at h d D ->
  (forall w W, word_at h w W -> let h' := fst (hadd_word U d w h) in
     snd (hadd_word U d w h) = snd (add_word U D W) /\ dict_at h' d (fst (add_word U D W)) /\ unchanged_but (Some d) h h') /\
  (forall t, snd (hhas_word d t h) = Ok (has_word D t) /\ unchanged h (fst (hhas_word d t h))) /\
  (forall t, match get_word D t with
             | Ok F => exists f, snd (hget_word d t h) = Ok f /\ wordform_at h f F
             | Err e => snd (hget_word d t h) = Err e end /\ unchanged h (fst (hget_word d t h))).
Proof.
  intros U h d D R HD. destruct (reachable_inv U h R) as [I _]. split; [|split].
  - intros w W HW. destruct (add_word_adds U h d D w W HD HW I) as (_ & S & SD & V & E). split; [exact E|]. split; [exact V|apply same_unchanged_but; auto].
  - intro t. apply dict_at_iff in HD. destruct HD as (D0 & H0 & HV). unfold hhas_word, reading, deref. rewrite H0. cbn [bind fst snd].
    split; [|apply same_unchanged; [apply same_refl|apply sd_eq; reflexivity]]. unfold has_word, dmem. assert (X := entries_dget h D0 D t HV). destruct (dget str_eqb t D0).
    + destruct X as (F & _ & ->). reflexivity.
    + rewrite X. reflexivity.
  - intro t. apply dict_at_iff in HD. destruct HD as (D0 & H0 & HV). unfold hget_word, reading, deref. rewrite H0. cbn [bind fst snd].
    split; [|apply same_unchanged; [apply same_refl|apply sd_eq; reflexivity]]. unfold get_word. assert (X := entries_dget h D0 D t HV). destruct (dget str_eqb t D0) as [f|].
    + destruct X as (F & HF & ->). exists f. auto.
    + rewrite X. reflexivity.
Qed.
(** constructors: a new object that looks like the value, or the same exception and no change *)
Theorem C58_constructors : forall U h, reachable U h ->
  (forall l, exists r, snd (new_list l h) = Ok r /\ (forall x, ~ list_at h r x) /\ list_at (fst (new_list l h)) r l /\ unchanged h (fst (new_list l h))) /\
  (forall t r l p, list_at h r l -> is_properties p -> let h' := fst (new_word t r p h) in
     match Word t l p with
     | Ok W => exists w, snd (new_word t r p h) = Ok w /\ (forall V, ~ word_at h w V) /\ word_at h' w W /\ built_on h' w r /\ unchanged h h'
     | Err e => snd (new_word t r p h) = Err e /\ h' = h end) /\
  (forall w W p fp, word_at h w W -> (forall q, p = Some q -> is_properties q) -> (forall q, fp = Some q -> is_properties q) -> let h' := fst (new_wordform w p fp h) in
     exists f, snd (new_wordform w p fp h) = Ok f /\ (forall V, ~ wordform_at h f V) /\ wordform_at h' f (WordForm W p fp) /\ unchanged h h') /\
  (exists d, snd (new_dict h) = Ok d /\ (forall V, ~ dict_at h d V) /\ dict_at (fst (new_dict h)) d [] /\ unchanged h (fst (new_dict h))).
Proof.
  intros U h R. destruct (reachable_inv U h R) as [I _]. split; [|split; [|split]].
  - intro l. destruct (new_list_does U h l I) as (_ & S & SD & r & E & Hr & _). exists r. split; [exact E|]. split; [|split; [exact Hr|apply same_unchanged; auto]].
    cbn in E. injection E as <-. intros x Hx. unfold list_at in Hx. assert (length (h_lists h) < length (h_lists h)) by (apply nth_error_Some; congruence). lia.
  - intros t r l p Hl Hp h'. destruct (new_word_does U h t r p Hp I) as (_ & S & SD & Q). specialize (Q l Hl). destruct (Word t l p) as [W|e].
    + destruct Q as (w & E & HW & HB & HN). exists w. split; [exact E|]. split; [|split; [exact HW|split; [exact HB|apply same_unchanged; auto]]].
      intros V HV. apply view_word_iff in HV. destruct HV as (o & l' & Ho & _). congruence.
    + destruct Q. auto.
  - intros w W p fp HW Hp Hfp h'. destruct (new_wordform_does U h w W p fp Hp Hfp HW I) as (_ & S & SD & f & E & HF & _ & HN). exists f. split; [exact E|]. split; [|split; [exact HF|apply same_unchanged; auto]].
    intros V HV. apply view_wordform_iff in HV. destruct HV as (o & l' & Ho & _). congruence.
  - destruct (new_dict_does U h I) as (_ & S & SD & d & E & HD & HN). exists d. split; [exact E|]. split; [|split; [exact HD|apply same_unchanged; auto]].
    intros V HV. apply dict_at_iff in HV. destruct HV as (o & Ho & _). congruence.
Qed.
(** construct_integer *)
Theorem C58_integers : forall U h n, reachable U h -> exists f F, snd (hconstruct_integer n h) = Ok f /\ construct_integer_raw n = Ok F /\
  wordform_at (fst (hconstruct_integer n h)) f F /\ unchanged h (fst (hconstruct_integer n h)).
Proof.
  intros U h n R. destruct (reachable_inv U h R) as [I _]. destruct (construct_integer_does U h n I) as (_ & S & SD & f & E & HF).
  destruct (construct_integer_raw n) as [F|e] eqn:ER; [|rewrite raw_ok in ER; discriminate]. exists f, F. split; [exact E|]. split; [reflexivity|]. split; [exact HF|apply same_unchanged; auto].
Qed.
(** deleting a lazy attribute never raises and changes nothing that can be seen, in any heap *)
Theorem C58_forget : forall U h a, snd (forget a h) = Ok tt /\ unchanged h (fst (forget a h)) /\ (reachable U h -> reachable U (fst (forget a h))).
Proof.
  intros U h a. split; [destruct a; reflexivity|]. split; [apply same_unchanged; [apply forget_same|apply sd_eq, forget_dicts]|]. intros R. exact (next U h (Op_forget a) R Logic.I).
Qed.
(** a careful program: a list, a word, a word form of it, a dictionary with the word, a number; then a template is printed *)
Definition story : list operation :=
  [Op_list noun_forms; Op_word WT_NOUN 0 (w_props coin); Op_wordform 0 (Some (Properties [AProp CASE_DATIVE])) None; Op_dictionary; Op_add_word 0 0; Op_text 0; Op_integer 20005].
Definition story_heap : heap := run ru_unicode story empty_heap.
Definition tpl (text : str) (ext : list str) : template := fst (parse_template ru_unicode {| t_subs := []; t_text := None |} text (map (fun n => (n, WordForm coin None None)) ext)).
Lemma reachable_run U ops : forall h, reachable U h -> (fix all (ops : list operation) (h : heap) : Prop := match ops with [] => True | op :: ops => allowed h op /\ all ops (perform U op h) end) ops h -> reachable U (run U ops h).
Proof. induction ops as [|op ops IH]; intros h R H; [exact R|]. destruct H as [A H]. cbn. apply IH; [constructor; assumption|exact H]. Qed.
Lemma dative_ok : is_properties (Properties [AProp CASE_DATIVE]).
Proof. constructor. intros d [H|[]]. discriminate. Qed.
Lemma story_reachable : reachable ru_unicode story_heap.
Proof.
  apply reachable_run; [constructor|]. unfold story. split; [exact I|]. split; [exact (proj1 coin_is_word)|]. split; [split; [intros q H; injection H as <-; exact dative_ok|discriminate]|].
  split; [exact I|]. split; [split; eexists; vm_compute; reflexivity|]. split; [eexists; vm_compute; reflexivity|]. split; exact I.
Qed.
Example C58_case : reachable ru_unicode story_heap /\ word_at story_heap 0 coin /\ (exists F, wordform_at story_heap 0 F /\ wf_form ru_unicode F = Ok (u "монете")) /\
  (exists D, dict_at story_heap 0 D /\ has_word D (u "монетам") = true) /\
  exists EXT, externals_at story_heap [(u "n", 19)] EXT /\ snd (hsubstitute ru_unicode (tpl (u "[n] [монета|n]") [u "n"]) [(u "n", 19)] 0 story_heap) = Ok (u "20005 монет").
Proof.
  split; [exact story_reachable|]. split; [vm_compute; reflexivity|]. split; [eexists; split; [vm_compute; reflexivity|vm_compute; reflexivity]|].
  split; [eexists; split; [vm_compute; reflexivity|vm_compute; reflexivity]|]. eexists. split; [vm_compute; reflexivity|vm_compute; reflexivity].
Qed.

(** ** C59: a word keeps the list object it was given, serialize hands it out, deserialize keeps the one in the data *)
(** changing a list changes the words built on it, and nothing else - in any heap *)
Theorem C59_change : forall h r l0 l, list_at h r l0 -> let h' := fst (change_list r l h) in
  list_at h' r l /\ (forall r' x, r' <> r -> list_at h r' x -> list_at h' r' x) /\
  (forall w W, word_at h w W -> built_on h w r -> word_at h' w {| w_type := w_type W; w_forms := l; w_props := w_props W |}) /\
  (forall w W, word_at h w W -> ~ built_on h w r -> word_at h' w W) /\
  (forall w r', built_on h w r' <-> built_on h' w r').
Proof.
  intros h r l0 l H h'. unfold list_at in *. cbn. split; [rewrite (nth_set_cases _ _ _ _ _ H), Nat.eqb_refl; reflexivity|].
  split; [intros r' x Hne Hx; rewrite (nth_set_cases _ _ _ _ _ H); destruct (Nat.eqb_spec r' r); congruence|].
  split; [intros w W; apply change_built|]. split; [intros w W; apply change_other|]. intros w r'. unfold built_on. reflexivity.
Qed.
(** a word is built on the list it was given (C58_constructors), and stays so, whatever is done *)
Theorem C59_built_on_forever : forall U ops h w r, built_on h w r -> built_on (run U ops h) w r.
Proof. intros U ops h w r (o & Ho & E). destruct (k_words _ _ _ (keeps_run U ops h) _ _ Ho) as (o' & Ho' & _ & E' & _). exists o'. split; [exact Ho'|congruence]. Qed.
(** serialize: the same data as in the value model, with the very list of the word *)
Theorem C59_serialize : forall U h w W r, reachable U h -> word_at h w W -> built_on h w r -> exists data,
  snd (serialize w h) = Ok data /\ fst (serialize w h) = h /\ hd_forms data = r /\ list_at h r (w_forms W) /\
  serialize_word W = Ok {| wd_type := hd_type data; wd_forms := w_forms W; wd_props := hd_props data |}.
Proof.
  intros U h w W r R HW (o & Ho & <-). destruct (reachable_inv U h R) as [I _]. assert (Hw := inv_word U h w W I HW).
  apply view_word_iff in HW. destruct HW as (o' & l & Ho' & Hl & ->). assert (o' = o) by congruence. subst o'.
  destruct (C16_word_roundtrip (mkword o l) Hw) as (d & Hd & _). unfold serialize_word in Hd. cbn [mkword w_props w_type w_forms] in *.
  destruct (serialize_props (hw_props o)) as [p|] eqn:Ep; [|discriminate].
  exists {| hd_type := wt_value (hw_type o); hd_forms := hw_list o; hd_props := p |}. unfold serialize, deref. rewrite Ho. cbn [bind fst snd]. rewrite Ep. cbn [bind].
  repeat split; auto. unfold serialize_word. cbn [mkword w_props w_type w_forms hd_type hd_props]. rewrite Ep. reflexivity.
Qed.
(** deserialize: as in the value model; the new word is built on the list in the data *)
Theorem C59_deserialize : forall U h data l, reachable U h -> list_at h (hd_forms data) l -> let h' := fst (deserialize data h) in
  match deserialize_word {| wd_type := hd_type data; wd_forms := l; wd_props := hd_props data |} with
  | Ok W => exists w, snd (deserialize data h) = Ok w /\ (forall V, ~ word_at h w V) /\ word_at h' w W /\ built_on h' w (hd_forms data) /\ unchanged h h'
  | Err e => snd (deserialize data h) = Err e /\ h' = h end.
Proof.
  intros U h data l R Hl h'. destruct (reachable_inv U h R) as [I _]. destruct (deserialize_does U h data I) as (_ & S & SD & Q). specialize (Q l Hl).
  destruct (deserialize_word _) as [W|e]; [|destruct Q; auto]. destruct Q as (w & E & HW & HB & HN). exists w. split; [exact E|]. split; [|split; [exact HW|split; [exact HB|apply same_unchanged; auto]]].
  intros V HV. apply view_word_iff in HV. destruct HV as (o & l' & Ho & _). congruence.
Qed.
(** autofill fills the list, hence all the words built on it *)
Theorem C59_autofill : forall U h w W r, reachable U h -> word_at h w W -> built_on h w r -> exists W', autofill_missed_forms W = Ok W' /\
  snd (autofill w h) = Ok tt /\ let h' := fst (autofill w h) in word_at h' w W' /\
  (forall v V, word_at h v V -> built_on h v r -> word_at h' v {| w_type := w_type V; w_forms := w_forms W'; w_props := w_props V |}) /\
  (forall v V, word_at h v V -> ~ built_on h v r -> word_at h' v V).
Proof.
  intros U h w W r R HW HB. destruct (reachable_inv U h R) as [I _]. destruct (C17_keeps W (inv_word _ _ _ _ I HW)) as (W' & HA & _). exists W'. split; [exact HA|].
  destruct (autofill_eq h w W W' HW HA) as (r' & HB' & E & Et & Ep). assert (r' = r) by (destruct HB as (o & Ho & <-), HB' as (o' & Ho' & <-); congruence). subst r'.
  rewrite E. cbn [fst snd]. split; [reflexivity|]. cbn zeta. split; [|split; [intros v V; apply change_built|intros v V; apply change_other]].
  assert (X := change_built h r (w_forms W') w W HW HB). rewrite <- Et, <- Ep in X. unfold word_at. destruct W'; exact X.
Qed.
(** so a copy made by serialize and deserialize is not a copy: completing it completes the original *)
Theorem C59_copy_is_shared : forall U h w W data v, reachable U h -> word_at h w W -> snd (serialize w h) = Ok data -> snd (deserialize data h) = Ok v ->
  v <> w /\ exists W' h', h' = fst (autofill v (fst (deserialize data h))) /\ autofill_missed_forms W = Ok W' /\ word_at h' w W'.
Proof.
  intros U h w W data v R HW Hs Hd. assert (HB : exists r, built_on h w r). { apply view_word_iff in HW. destruct HW as (o & l & Ho & _). exists (hw_list o), o. auto. } destruct HB as (r & HB).
  destruct (C59_serialize U h w W r R HW HB) as (data' & Hs' & _ & Hr & Hl & HS). assert (data' = data) by congruence. subst data'.
  assert (HD := C59_deserialize U h data (w_forms W) R). rewrite Hr in HD. specialize (HD Hl). cbn zeta in HD.
  destruct (deserialize_word _) as [V|e] eqn:ED; [|destruct HD; congruence]. destruct HD as (v' & Hv & Hn & HV & HBV & HU). assert (v' = v) by congruence. subst v'.
  split; [intro; subst v; exact (Hn _ HW)|].
  set (h1 := fst (deserialize data h)) in *. assert (R1 : reachable U h1) by (apply (next U h (Op_deserialize data) R Logic.I)).
  destruct HU as (_ & HUw & _ & _ & HUb).
  destruct (C59_autofill U h1 v V r R1 HV HBV) as (V' & HA & _ & _ & HX & _). specialize (HX w W (HUw _ _ HW) (HUb _ _ HB)).
  exists {| w_type := w_type W; w_forms := w_forms V'; w_props := w_props W |}, (fst (autofill v h1)). split; [reflexivity|]. split; [|exact HX].
  assert (EV : w_type V = w_type W /\ w_forms V = w_forms W).
  { unfold deserialize_word in ED. unfold serialize_word in HS. cbn [wd_type wd_forms wd_props] in ED. destruct (serialize_props (w_props W)) as [p|]; [|discriminate]. cbn [bind] in HS. injection HS as E1 E2. rewrite <- E1 in ED.
    destruct (wt_call (wt_value (w_type W))) as [t|] eqn:Et; [|discriminate]. rewrite (proj2 (wt_call_iff _ (w_type W)) eq_refl) in Et. injection Et as <-. destruct (deserialize_props (hd_props data)) as [q|]; [|discriminate]. cbn [bind] in ED.
    unfold Word in ED. destruct (Nat.eqb _ _); [|discriminate]. injection ED as <-. split; reflexivity. }
  destruct EV as [E1 E2]. unfold autofill_missed_forms in *. rewrite E1, E2 in HA. destruct (autofill_forms (w_type W) (w_forms W)) as [l|]; [|discriminate]. cbn [bind] in *. injection HA as <-. reflexivity.
Qed.
Example C59_case : built_on story_heap 0 0 /\ list_at story_heap 0 noun_forms /\ exists data v, snd (serialize 0 story_heap) = Ok data /\ snd (deserialize data story_heap) = Ok v /\
  word_at (fst (change_list 0 (repeat (u "копейка") 18) (fst (deserialize data story_heap)))) 0 {| w_type := WT_NOUN; w_forms := repeat (u "копейка") 18; w_props := w_props coin |}.
Proof.
  split; [eexists; vm_compute; split; reflexivity|]. split; [vm_compute; reflexivity|]. eexists. eexists. split; [vm_compute; reflexivity|]. split; [vm_compute; reflexivity|]. vm_compute. reflexivity.
Qed.

(** ** C60: lazily computed attributes, once read, never change unless they are deleted, whatever is done to the lists; registered
    texts stay registered *)
Theorem C60_once_read : forall U ops h,
  (forall f s, snd (text U f h) = Ok s -> ~ In (Op_forget (L_form f)) ops -> snd (text U f (run U ops (fst (text U f h)))) = Ok s) /\
  (forall f b, snd (cluster U f h) = Ok b -> ~ In (Op_forget (L_cluster f)) ops -> snd (cluster U f (run U ops (fst (cluster U f h)))) = Ok b) /\
  (forall w n, snd (syllables w h) = Ok n -> ~ In (Op_forget (L_syllables w)) ops -> snd (syllables w (run U ops (fst (syllables w h)))) = Ok n) /\
  (forall w b, snd (fluent w h) = Ok b -> ~ In (Op_forget (L_fluent w)) ops -> snd (fluent w (run U ops (fst (fluent w h)))) = Ok b).
Proof.
  intros U ops h. split; [|split; [|split]].
  - intros f s H NF. assert (X : exists o, nth_error (h_wordforms (fst (text U f h))) f = Some o /\ hf_form o = Some s).
    { rewrite text_run in *. destruct (nth_error (h_wordforms h) f) as [o|] eqn:E; [|discriminate]. destruct (hf_form o) eqn:Ef; [injection H as ->; eauto|].
      destruct (F <- view_wordform h f;; wf_form U F); [|discriminate]. injection H as ->. unfold store_form. cbn [fst]. rewrite E. cbn. rewrite (nth_set_cases _ _ _ _ _ E), Nat.eqb_refl. eauto. }
    destruct X as (o & Ho & Eo). destruct (k_wfs _ _ _ (keeps_run U ops _) _ _ Ho) as (o' & Ho' & _ & _ & _ & K & _). rewrite text_run, Ho', (K _ NF Eo). reflexivity.
  - intros f s H NF. assert (X : exists o, nth_error (h_wordforms (fst (cluster U f h))) f = Some o /\ hf_cluster o = Some s).
    { rewrite cluster_run in *. destruct (nth_error (h_wordforms h) f) as [o|] eqn:E; [|discriminate]. destruct (hf_cluster o) eqn:Ef; [injection H as ->; eauto|].
      destruct (text_cluster U f h o E) as (o1 & H1 & _). destruct (text U f h) as [h1 [t|]]; [|discriminate]. cbn [fst] in *. destruct (cluster_of t); [|discriminate]. injection H as ->.
      unfold store_cluster. cbn [fst]. rewrite H1. cbn. rewrite (nth_set_cases _ _ _ _ _ H1), Nat.eqb_refl. eauto. }
    destruct X as (o & Ho & Eo). destruct (k_wfs _ _ _ (keeps_run U ops _) _ _ Ho) as (o' & Ho' & _ & _ & _ & _ & K). rewrite cluster_run, Ho', (K _ NF Eo). reflexivity.
  - intros f s H NF. assert (X : exists o, nth_error (h_words (fst (syllables f h))) f = Some o /\ hw_syllables o = Some s).
    { rewrite syllables_run in *. destruct (nth_error (h_words h) f) as [o|] eqn:E; [|discriminate]. destruct (hw_syllables o) eqn:Ef; [injection H as ->; eauto|].
      destruct (F <- view_word h f;; number_of_syllables F); [|discriminate]. injection H as ->. unfold store_syllables. cbn [fst]. rewrite E. cbn. rewrite (nth_set_cases _ _ _ _ _ E), Nat.eqb_refl. eauto. }
    destruct X as (o & Ho & Eo). destruct (k_words _ _ _ (keeps_run U ops _) _ _ Ho) as (o' & Ho' & _ & _ & _ & K & _). rewrite syllables_run, Ho', (K _ NF Eo). reflexivity.
  - intros f s H NF. assert (X : exists o, nth_error (h_words (fst (fluent f h))) f = Some o /\ hw_fluent o = Some s).
    { rewrite fluent_run in *. destruct (nth_error (h_words h) f) as [o|] eqn:E; [|discriminate]. destruct (hw_fluent o) eqn:Ef; [injection H as ->; eauto|].
      destruct (F <- view_word h f;; has_fluent_vowel F); [|discriminate]. injection H as ->. unfold store_fluent. cbn [fst]. rewrite E. cbn. rewrite (nth_set_cases _ _ _ _ _ E), Nat.eqb_refl. eauto. }
    destruct X as (o & Ho & Eo). destruct (k_words _ _ _ (keeps_run U ops _) _ _ Ho) as (o' & Ho' & _ & _ & _ & _ & K). rewrite fluent_run, Ho', (K _ NF Eo). reflexivity.
Qed.
(** deleting an attribute and reading it again gives the value for what the object looks like now - in any heap, also after
    careless changes; starts_with_consonant_cluster is computed from the remembered form, so that has to be deleted too *)
Theorem C60_read_again : forall U h,
  (forall w W, word_at h w W -> snd (syllables w (fst (forget (L_syllables w) h))) = number_of_syllables W) /\
  (forall w W, word_at h w W -> snd (fluent w (fst (forget (L_fluent w) h))) = has_fluent_vowel W) /\
  (forall f F, wordform_at h f F -> snd (text U f (fst (forget (L_form f) h))) = wf_form U F) /\
  (forall f F, wordform_at h f F -> snd (cluster U f (fst (forget (L_cluster f) (fst (forget (L_form f) h))))) = starts_with_consonant_cluster U F).
Proof.
  intros U h. split; [|split; [|split]].
  - intros w W HW. assert (HW' := same_word _ _ _ _ (forget_same h (L_syllables w)) HW). rewrite syllables_run, HW'. cbn [bind].
    apply view_word_iff in HW. destruct HW as (o & l & Ho & _). cbn [forget modify fst]. unfold forget_in_word. rewrite Ho. cbn [set_words h_words].
    rewrite (nth_set_cases _ _ _ _ _ Ho), Nat.eqb_refl. cbn [hw_syllables]. destruct (number_of_syllables W); reflexivity.
  - intros w W HW. assert (HW' := same_word _ _ _ _ (forget_same h (L_fluent w)) HW). rewrite fluent_run, HW'. cbn [bind].
    apply view_word_iff in HW. destruct HW as (o & l & Ho & _). cbn [forget modify fst]. unfold forget_in_word. rewrite Ho. cbn [set_words h_words].
    rewrite (nth_set_cases _ _ _ _ _ Ho), Nat.eqb_refl. cbn [hw_fluent]. destruct (has_fluent_vowel W); reflexivity.
  - intros f F HF. assert (HF' := same_wf _ _ _ _ (forget_same h (L_form f)) HF). rewrite text_run, HF'. cbn [bind].
    apply view_wordform_iff in HF. destruct HF as (o & l & Ho & _). cbn [forget modify fst]. unfold forget_in_wordform. rewrite Ho. cbn [set_wordforms h_wordforms].
    rewrite (nth_set_cases _ _ _ _ _ Ho), Nat.eqb_refl. cbn [hf_form]. destruct (wf_form U F); reflexivity.
  - intros f F HF. set (h1 := fst (forget (L_form f) h)). set (h2 := fst (forget (L_cluster f) h1)).
    assert (HF' : view_wordform h2 f = Ok F) by (eapply same_wf; [apply forget_same|]; eapply same_wf; [apply forget_same|exact HF]).
    apply view_wordform_iff in HF. destruct HF as (o & l & Ho & _).
    assert (H1 : nth_error (h_wordforms h1) f = Some {| hf_word := hf_word o; hf_props := hf_props o; hf_form_props := hf_form_props o; hf_form := None; hf_cluster := hf_cluster o |}).
    { unfold h1. cbn [forget modify fst]. unfold forget_in_wordform. rewrite Ho. cbn [set_wordforms h_wordforms]. rewrite (nth_set_cases _ _ _ _ _ Ho), Nat.eqb_refl. reflexivity. }
    assert (H2 : nth_error (h_wordforms h2) f = Some {| hf_word := hf_word o; hf_props := hf_props o; hf_form_props := hf_form_props o; hf_form := None; hf_cluster := None |}).
    { unfold h2. cbn [forget modify fst]. unfold forget_in_wordform. rewrite H1. cbn [set_wordforms h_wordforms]. rewrite (nth_set_cases _ _ _ _ _ H1), Nat.eqb_refl. reflexivity. }
    rewrite cluster_run, H2. cbn [hf_cluster]. rewrite text_run, H2. cbn [hf_form]. rewrite HF'. cbn [bind]. unfold starts_with_consonant_cluster.
    destruct (wf_form U F) as [s|e]; [|reflexivity]. cbn [bind]. unfold cluster_of. 
    destruct s as [|? [|? ?]]; reflexivity.
Qed.
(** a text that the dictionary knows stays known *)
Theorem C60_registered : forall U ops h d t, snd (hhas_word d t h) = Ok true ->
  snd (hhas_word d t (run U ops h)) = Ok true /\ exists f, snd (hget_word d t (run U ops h)) = Ok f.
Proof.
  intros U ops h d t H. unfold hhas_word, hget_word, reading, deref in *. cbn [snd] in *. destruct (nth_error (h_dicts h) d) as [D|] eqn:E; [|discriminate]. cbn [bind] in H. injection H as H.
  destruct (k_dicts _ _ _ (keeps_run U ops h) _ _ E) as (D' & -> & K). cbn [bind]. specialize (K t H). rewrite K. split; [reflexivity|]. unfold dmem in K. destruct (dget str_eqb t D'); [eauto|discriminate].
Qed.
(** the careless program: the list of a word in use is changed.  The word form keeps its text, the dictionary its entry - and the
    variable prints the new form *)
Definition careless : heap := run ru_unicode [Op_change 0 (repeat (u "копейка") 18)] story_heap.
Theorem C60_stale_refuted : exists F, wordform_at careless 0 F /\ wf_form ru_unicode F = Ok (u "копейка") /\ snd (text ru_unicode 0 careless) = Ok (u "монете") /\
  snd (hhas_word 0 (u "монета") careless) = Ok true /\ snd (hhas_word 0 (u "копейка") careless) = Ok false /\
  snd (hsubstitute ru_unicode (tpl (u "[монета]") []) [] 0 careless) = Ok (u "копейка").
Proof. eexists. split; [vm_compute; reflexivity|]. split; [vm_compute; reflexivity|]. split; [vm_compute; reflexivity|]. split; [vm_compute; reflexivity|]. split; vm_compute; reflexivity. Qed.
(** after deleting the form the word form prints the new text; the dictionary stays as it was *)
Example C60_read_again_case : exists F, wordform_at careless 0 F /\ snd (text ru_unicode 0 careless) = Ok (u "монете") /\
  snd (text ru_unicode 0 (fst (forget (L_form 0) careless))) = Ok (u "копейка") /\ wf_form ru_unicode F = Ok (u "копейка") /\
  snd (hhas_word 0 (u "копейка") (fst (forget (L_form 0) careless))) = Ok false.
Proof. eexists. split; [vm_compute; reflexivity|]. split; [vm_compute; reflexivity|]. split; [vm_compute; reflexivity|]. split; vm_compute; reflexivity. Qed.
(** a careful program may change a list after the word was used: it deletes what was read before *)
Definition repaired : list operation :=
  [Op_list noun_forms; Op_word WT_NOUN 0 (w_props coin); Op_wordform 0 (Some (Properties [AProp CASE_DATIVE])) None; Op_text 0; Op_syllables 0;
   Op_forget (L_form 0); Op_forget (L_syllables 0); Op_change 0 (repeat (u "копейка") 18); Op_text 0].
Example C58_repaired_case : reachable ru_unicode (run ru_unicode repaired empty_heap) /\ snd (text ru_unicode 0 (run ru_unicode repaired empty_heap)) = Ok (u "копейка").
Proof.
  split; [|vm_compute; reflexivity]. apply reachable_run; [constructor|]. unfold repaired. split; [exact I|]. split; [exact (proj1 coin_is_word)|].
  split; [split; [intros q H; injection H as <-; exact dative_ok|discriminate]|]. split; [eexists; vm_compute; reflexivity|]. split; [eexists; vm_compute; reflexivity|]. split; [exact I|]. split; [exact I|].
  split; [|split; [eexists; vm_compute; reflexivity|exact I]].
  assert (X : exists h, fold_left (fun h op => perform ru_unicode op h) [Op_list noun_forms; Op_word WT_NOUN 0 (w_props coin); Op_wordform 0 (Some (Properties [AProp CASE_DATIVE])) None; Op_text 0; Op_syllables 0;
   Op_forget (L_form 0); Op_forget (L_syllables 0)] empty_heap = h /\ allowed h (Op_change 0 (repeat (u "копейка") 18))).
  { eexists. split; [vm_compute; reflexivity|]. split.
    - intros [|w] o Ho; [|destruct w; discriminate]. injection Ho as <-. intros _. split; [reflexivity|]. split; [reflexivity|]. intros [|f] F HF; [|destruct f; discriminate]. injection HF as <-. intros _.
      split; [reflexivity|]. split; [reflexivity|]. split; [intros [|d] D t Hd; discriminate|discriminate].
    - intros l0 w Hl _. unfold list_at in Hl. injection Hl as <-. reflexivity. }
  destruct X as (h & <- & A). exact A.
Qed.
Example C60_case : snd (text ru_unicode 0 story_heap) = Ok (u "монете") /\ snd (hhas_word 0 (u "монетам") story_heap) = Ok true /\ snd (syllables 0 story_heap) = Ok 3.
Proof. split; [vm_compute; reflexivity|]. split; vm_compute; reflexivity. Qed.

(** ** C61: the numbers 0..10000 are shared objects *)
Theorem C61_same_object : forall U ops h n f, (0 <= n <= 10000)%Z -> snd (hconstruct_integer n h) = Ok f ->
  hconstruct_integer n (run U ops (fst (hconstruct_integer n h))) = (run U ops (fst (hconstruct_integer n h)), Ok f).
Proof.
  intros U ops h n f Hn H. assert (En : in_cache_range n = true) by (unfold in_cache_range, CACHE_LEFT, CACHE_RIGHT; apply andb_true_iff; split; apply Z.leb_le; lia).
  assert (X : exists l, h_integers (fst (hconstruct_integer n h)) = Some l /\ py_nth l (Z.to_nat n) = Ok f).
  { unfold hconstruct_integer in *. rewrite En in *. unfold hbind at 1, reading in H. unfold hbind at 1, reading. destruct (h_integers h) as [l|] eqn:E; [exists l; auto|].
    unfold hbind in *. destruct (hmap _ _ h) as [h1 [l|e]]; [|discriminate]. cbn in *. exists l. auto. }
  destruct X as (l & El & Hl). assert (K := k_ints _ _ _ (keeps_run U ops (fst (hconstruct_integer n h))) _ El).
  unfold hconstruct_integer at 1. rewrite En. unfold hbind, reading. rewrite K. unfold lift. rewrite Hl. reflexivity.
Qed.
Theorem C61_different_numbers : forall U h n m f g, reachable U h -> snd (hconstruct_integer n h) = Ok f -> snd (hconstruct_integer m (fst (hconstruct_integer n h))) = Ok g -> n <> m -> f <> g.
Proof.
  intros U h n m f g R Hf Hg Hne ->. destruct (C58_integers U h n R) as (f1 & F1 & E1 & ER1 & HF1 & _). assert (f1 = g) by congruence. subst f1.
  set (h1 := fst (hconstruct_integer n h)) in *. assert (R1 : reachable U h1) by (apply (next U h (Op_integer n) R Logic.I)).
  destruct (C58_integers U h1 m R1) as (f2 & F2 & E2 & ER2 & HF2 & HU). assert (f2 = g) by congruence. subst f2. destruct HU as (_ & _ & HU & _).
  assert (F1 = F2) by (specialize (HU _ _ HF1); unfold wordform_at in *; congruence). subst F2.
  rewrite raw_ok in ER1, ER2. injection ER1 as <-. injection ER2 as E _. apply Hne. apply (f_equal (fun s => parse_int s)) in E. rewrite !parse_int_str_of_Z in E. congruence.
Qed.
(** other numbers get a new object for every call *)
Theorem C61_outside : forall U h n, reachable U h -> ~ (0 <= n <= 10000)%Z -> exists f, snd (hconstruct_integer n h) = Ok f /\ forall F, ~ wordform_at h f F.
Proof.
  intros U h n R Hn. destruct (reachable_inv U h R) as [I _]. assert (En : in_cache_range n = false) by (unfold in_cache_range, CACHE_LEFT, CACHE_RIGHT; apply andb_false_iff; destruct (Z.leb_spec 0 n); [right; apply Z.leb_gt; lia|left; reflexivity]).
  unfold hconstruct_integer. rewrite En. destruct (integer_raw_does U h n I) as (_ & _ & _ & f & E & _ & HN). exists f. split; [exact E|]. intros F HF. apply view_wordform_iff in HF. destruct HF as (o & W & Ho & _). congruence.
Qed.
(** and the shared object can be spoilt: if its list is changed, every later user of the number prints the new text *)
Definition one_variable (name : str) : template := {| t_subs := [{| s_id := name; s_deps := [] |}]; t_text := Some (u "%s") |}.
Lemma one_variable_run U name (f d : ref) h o ow W : nth_error (h_wordforms h) f = Some o -> nth_error (h_words h) (hf_word o) = Some ow -> view_word h (hf_word o) = Ok W ->
  snd (hsubstitute U (one_variable name) [(name, f)] d h) = get_form U W (clone (hf_props o) [AProps (hw_props ow)]).
Proof.
  intros Ho How HW. unfold hsubstitute, one_variable. cbn [t_subs t_text hmap]. unfold hget_text. cbn [s_id s_deps dget]. rewrite (eqb_ok_refl _ str_eqb_ok). cbn [hfold].
  unfold hbind, ret, reading, deref. rewrite Ho. rewrite How. cbn [fst snd app hfold]. unfold ret. rewrite HW. cbn [bind].
  destruct (get_form U W _) as [s|e]; [|reflexivity]. unfold lift. cbn [snd]. cbn. rewrite app_nil_r. reflexivity.
Qed.
Theorem C61_spoilt : forall U h n name d, reachable U h -> (0 <= n <= 10000)%Z -> exists f r, snd (hconstruct_integer n h) = Ok f /\
  let h1 := fst (hconstruct_integer n h) in list_at h1 r [str_of_Z n] /\
  forall t, let h2 := fst (change_list r [t] h1) in
    snd (hconstruct_integer n h2) = Ok f /\ snd (hsubstitute U (one_variable name) [(name, f)] d h2) = Ok t.
Proof.
  intros U h n name d R Hn. destruct (C58_integers U h n R) as (f & F & E & ER & HF & _). rewrite raw_ok in ER. injection ER as <-.
  set (h1 := fst (hconstruct_integer n h)) in *. unfold wordform_at in HF. apply view_wordform_iff in HF. destruct HF as (o & W & Ho & HW & EF).
  assert (HW0 := HW). apply view_word_iff in HW. destruct HW as (ow & l & How & Hl & EW). subst W.
  unfold integer_word, mkwf, mkword in EF. injection EF as E1 E2 E3 E4 E5.
  exists f, (hw_list ow). split; [exact E|]. cbn zeta. split; [unfold list_at; congruence|]. intro t.
  split; [exact (f_equal snd (C61_same_object U [Op_change (hw_list ow) [t]] h n f Hn E))|].
  set (h2 := fst (change_list (hw_list ow) [t] h1)).
  assert (HW2 := change_built h1 (hw_list ow) [t] (hf_word o) _ HW0 (ex_intro _ ow (conj How eq_refl))). fold h2 in HW2. cbn [mkword w_type w_props] in HW2.
  rewrite <- E1, <- E3 in HW2.
  rewrite (one_variable_run U name f d h2 o ow _ Ho How HW2). rewrite <- E4, <- E3.
  assert (HP : is_properties (integer_properties n)) by apply integer_properties_ok.
  set (q := clone (integer_properties n) [AProps (integer_properties n)]).
  assert (HQ : is_properties q) by (constructor; intros x [Hx|[Hx|[]]]; injection Hx as <-; exact HP).
  set (W := {| w_type := WT_INTEGER; w_forms := [t]; w_props := integer_properties n |}).
  assert (HWW : is_word W) by (split; [exact HP|reflexivity]).
  destruct (word__form_total W q HWW HQ) as (s & Hs & Hin). destruct Hin as [<-|[]].
  assert (G : get_form U W q = Ok t).
  { apply (get_form_spec U W q _ HQ Hs). intros H. revert H. unfold q, clone, integer_properties, holds.
    repeat match goal with |- context [if ?b then _ else _] => destruct b end; cbn; intuition discriminate. }
  rewrite G. reflexivity.
Qed.
Example C61_case : exists f, reachable ru_unicode story_heap /\ snd (hconstruct_integer (-7) story_heap) = Ok f /\ snd (text ru_unicode f (fst (hconstruct_integer (-7) story_heap))) = Ok (u "-7").
Proof. exists 20. split; [exact story_reachable|]. split; vm_compute; reflexivity. Qed.
