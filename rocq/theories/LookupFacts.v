(** * LookupFacts: second phase of the raw caches; lookup of forms *)
From Coq Require Import Lia.
From Verif Require Import PyBase PyFloat Relations Restrictions Logic Data Words PyBaseFacts SpecSlots SpecProps
  PropsFacts FloatFacts NearestFacts SlotFacts.

(** ** phase 2, for arbitrary caches *)
Definition below (n : nat) (cache : dict key nat) : Prop := forall r i, dget key_eqb r cache = Some i -> i < n.
Lemma fill_spec n cache k : cache <> [] -> below n cache ->
  exists cache', raw_cache_fill cache k = Ok cache' /\ cache' <> [] /\ below n cache' /\
    (forall r i, dget key_eqb r cache = Some i -> dget key_eqb r cache' = Some i) /\
    (exists i, dget key_eqb k cache' = Some i) /\
    (dget key_eqb k cache = None -> exists nk i, nearest k (dkeys cache) nk /\ dget key_eqb nk cache = Some i /\ dget key_eqb k cache' = Some i).
Proof.
  intros Hne Hb. unfold raw_cache_fill, dmem. destruct (dget key_eqb k cache) as [i|] eqn:E.
  - exists cache. repeat split; try assumption; auto; [exists i; exact E|discriminate].
  - destruct (get_nearest_key k (dkeys cache)) as [nk|] eqn:En.
    2: { apply get_nearest_key_none in En. destruct cache; [contradiction|discriminate]. }
    apply get_nearest_key_iff in En. pose proof (nearest_in _ _ _ En) as Hin.
    apply (dmem_iff _ key_eqb_ok) in Hin. unfold dmem in Hin. destruct (dget key_eqb nk cache) as [i|] eqn:Ei; [|discriminate].
    exists (dset key_eqb k i cache). split; [reflexivity|]. split; [|split; [|split; [|split]]].
    + destruct cache as [|[a b] c]; simpl; [discriminate|]. destruct (key_eqb k a); discriminate.
    + intros r j. rewrite (dget_dset _ key_eqb_ok). destruct (key_eqb k r); [intros [= <-]; exact (Hb nk i Ei)|apply Hb].
    + intros r j Hr. rewrite (dget_dset_other _ key_eqb_ok); [exact Hr|]. intros ->. congruence.
    + exists i. apply (dget_dset_same _ key_eqb_ok).
    + intros _. exists nk, i. split; [exact En|]. split; [exact Ei|apply (dget_dset_same _ key_eqb_ok)].
Qed.
Lemma fill_all n l : forall cache, cache <> [] -> below n cache ->
  exists cache', foldM raw_cache_fill l cache = Ok cache' /\ cache' <> [] /\ below n cache' /\
    (forall r i, dget key_eqb r cache = Some i -> dget key_eqb r cache' = Some i) /\
    (forall k, In k l -> exists i, dget key_eqb k cache' = Some i).
Proof.
  induction l as [|k l IH]; intros cache Hne Hb; simpl.
  - exists cache. repeat split; auto. intros k [].
  - destruct (fill_spec n cache k Hne Hb) as (c1 & E & Hne1 & Hb1 & Hkeep & [i Hi] & _). rewrite E. simpl.
    destruct (IH c1 Hne1 Hb1) as (c2 & E2 & Hne2 & Hb2 & Hkeep2 & Hall). exists c2.
    split; [exact E2|]. split; [exact Hne2|]. split; [exact Hb2|]. split; [auto|].
    intros k' [<-|Hin]; [exists i; auto|apply Hall, Hin].
Qed.

(** ** every valid key has a combination, so that phase 1 of a non-empty table is not empty *)
Lemma valid_has_combination restr sch : forall left k, valid_after restr left sch k -> exists c, combination sch c /\ agrees c k.
Proof.
  induction sch as [|g sch IH]; intros left [|o k] Hv; try destruct Hv.
  - exists []. split; constructor.
  - destruct H0 as [H2 H3]. destruct (IH _ _ H3) as (c & Hc & Ha).
    destruct o as [p|].
    + exists (p :: c). split; constructor; auto.
    + assert (Hr := records_nonempty g). destruct (records g) as [|p rs] eqn:E; [contradiction|]. exists (p :: c).
      split; constructor; auto. rewrite E. left; reflexivity.
Qed.
Section RawLookup.
  Context (sch : list relation) (restr : restr_table) (parts : list (list prop)).
  Let keys := restricted_keys_generator sch restr parts.
  Lemma phase1_below : below (length keys) (raw_cache_phase1 keys sch).
  Proof.
    intros r i H. apply phase1_spec in H as (c & k & _ & _ & Hk & _). apply nth_error_Some. fold keys in Hk. congruence.
  Qed.
  Lemma phase1_nonempty : keys <> [] -> raw_cache_phase1 keys sch <> [].
  Proof.
    intros Hne. destruct keys as [|k ks] eqn:E; [contradiction|]. rewrite <- E.
    assert (Hk : nth_error keys 0 = Some k) by (rewrite E; reflexivity).
    assert (Hin : In k keys) by (rewrite E; left; reflexivity).
    destruct (valid_has_combination restr sch [] k (keys_valid sch restr parts k Hin)) as (c & Hc & Ha).
    intros Hn. assert (H : dget key_eqb (map Some c) (raw_cache_phase1 keys sch) = Some 0).
    { apply phase1_spec. exists c, k. auto. }
    rewrite Hn in H. discriminate.
  Qed.
  Lemma raw_cache_spec : keys <> [] -> exists cache, get_raw_cache keys sch = Ok cache /\
    (forall c i, combination sch c -> dget key_eqb (map Some c) cache = Some i -> i < length keys) /\
    (forall c, combination sch c -> exists i, dget key_eqb (map Some c) cache = Some i) /\
    (forall c i k, combination sch c -> nth_error keys i = Some k -> agrees c k -> dget key_eqb (map Some c) cache = Some i).
  Proof.
    intros Hne. destruct (fill_all (length keys) (full_keys_generator sch) (raw_cache_phase1 keys sch) (phase1_nonempty Hne) phase1_below)
      as (cache & E & _ & Hb & Hkeep & Hall).
    exists cache. split; [exact E|]. split; [|split].
    - intros c i _ H. exact (Hb _ _ H).
    - intros c Hc. apply Hall. apply full_keys_spec. exists c. auto.
    - intros c i k Hc Hk Ha. apply Hkeep. apply phase1_spec. exists c, k. auto.
  Qed.
End RawLookup.

(** ** the shipped tables *)
Lemma RAW_eq : forall t, RAW_WORDS_CACHES t = raw_cache_of t.
Proof. intros []; reflexivity. Qed.
Lemma INVERTED_eq t : INVERTED_WORDS_CACHES t = restricted_keys_generator (schema t) (RESTRICTIONS t) (RESTRICTED_KEY_PARTS t).
Proof. reflexivity. Qed.
Lemma INVERTED_nonempty t : INVERTED_WORDS_CACHES t <> [].
Proof.
  assert (H : negb (match INVERTED_WORDS_CACHES t with [] => true | _ => false end) = true).
  { revert t. apply all_word_types_forallb. vm_compute. reflexivity. }
  destruct (INVERTED_WORDS_CACHES t); [discriminate|discriminate].
Qed.
Lemma WORDS_CACHES_length t : length (WORDS_CACHES t) = length (INVERTED_WORDS_CACHES t).
Proof. apply cache_length. Qed.
Lemma WORDS_CACHES_dget t k i : dget key_eqb k (WORDS_CACHES t) = Some i <-> slot t i k.
Proof. apply cache_dget. Qed.
Lemma INVERTED_nodup t : NoDup (INVERTED_WORDS_CACHES t).
Proof. apply restricted_keys_nodup. Qed.
Lemma slot_inj t i j k : slot t i k -> slot t j k -> i = j.
Proof. apply nodup_index, INVERTED_nodup. Qed.
Lemma slot_lt t i k : slot t i k -> i < length (INVERTED_WORDS_CACHES t).
Proof. unfold slot. intros H. apply nth_error_Some. congruence. Qed.
Lemma slot_exists t i : i < length (INVERTED_WORDS_CACHES t) -> exists k, slot t i k.
Proof. unfold slot. intros H. apply nth_error_Some in H. destruct (nth_error (INVERTED_WORDS_CACHES t) i) as [k|]; [exists k; reflexivity|contradiction]. Qed.
Lemma slot_valid t i k : slot t i k -> valid_after (RESTRICTIONS t) [] (schema t) k.
Proof. intros H. apply nth_error_In in H. exact (keys_valid _ _ _ k H). Qed.
Lemma slot_length t i k : slot t i k -> length k = length (schema t).
Proof. intros H. apply slot_valid, valid_after_slot in H. apply H. Qed.
Lemma slot_unique t c i j k k' : combination (schema t) c -> slot t i k -> slot t j k' -> agrees c k -> agrees c k' -> i = j /\ k = k'.
Proof.
  intros Hc Hk Hk' Ha Ha'.
  assert (k = k').
  { apply (keys_unique (schema t) (RESTRICTIONS t) (RESTRICTED_KEY_PARTS t) c); try assumption.
    - apply nth_error_In in Hk. exact Hk.
    - apply nth_error_In in Hk'. exact Hk'. }
  subst. split; [exact (slot_inj t i j k' Hk Hk')|reflexivity].
Qed.

Lemma raw_index_spec t c : combination (schema t) c ->
  exists i, raw_index t (map Some c) = Ok i /\ i < length (INVERTED_WORDS_CACHES t).
Proof.
  intros Hc. destruct (raw_cache_spec (schema t) (RESTRICTIONS t) (RESTRICTED_KEY_PARTS t) (INVERTED_nonempty t)) as (cache & E & H1 & H2 & _).
  unfold raw_index. rewrite RAW_eq. unfold raw_cache_of. rewrite INVERTED_eq, E. simpl. destruct (H2 c Hc) as [i Hi]. rewrite Hi.
  exists i. split; [reflexivity|]. exact (H1 c i Hc Hi).
Qed.
Lemma raw_index_slot t c i k : combination (schema t) c -> slot t i k -> agrees c k -> raw_index t (map Some c) = Ok i.
Proof.
  intros Hc Hk Ha. destruct (raw_cache_spec (schema t) (RESTRICTIONS t) (RESTRICTED_KEY_PARTS t) (INVERTED_nonempty t)) as (cache & E & _ & _ & H3).
  unfold raw_index. rewrite RAW_eq. unfold raw_cache_of. rewrite INVERTED_eq, E. simpl. rewrite (H3 c i k Hc Hk Ha). reflexivity.
Qed.

Lemma schema_no_word_type t g : In g (schema t) -> g <> R_WORD_TYPE.
Proof. destruct t; simpl; intros H ->; repeat (destruct H as [H|H]; [discriminate|]); destruct H. Qed.

(** what a Properties object says about the groups of a schema *)
Definition values (p : props) (sch : list relation) (c : list prop) : Prop := Forall2 (fun g v => pget p g = Ok (Some v)) sch c.
Lemma values_raw_key p sch c : values p sch c -> get_raw_key p sch = Ok (map Some c).
Proof.
  intros H. unfold get_raw_key. apply mapM_ok. induction H; simpl; constructor; assumption.
Qed.
Lemma pget_rel p g v : props_wf p -> pget p g = Ok (Some v) -> In v (records g).
Proof.
  intros Hp H. rewrite pget_spec in H. apply in_records. destruct (dget rel_eqb g p) as [w|] eqn:E.
  - injection H as ->. apply (holds_rel p g v Hp). apply holds_dget; assumption.
  - injection H as H. apply default_of_rel, H.
Qed.
Lemma values_combination p sch c : props_wf p -> values p sch c -> combination sch c.
Proof. intros Hp H. unfold combination. induction H; constructor; [|assumption]. exact (pget_rel p x y Hp H). Qed.
Lemma values_exist p sch : (forall g, In g sch -> g <> R_WORD_TYPE) -> exists c, values p sch c.
Proof.
  induction sch as [|g sch IH]; intros H; [exists []; constructor|].
  destruct IH as [c Hc]; [intros g' Hg; apply H; right; exact Hg|].
  assert (Hv : exists v, pget p g = Ok (Some v)).
  { rewrite pget_spec. destruct (dget rel_eqb g p) as [v|]; [exists v; reflexivity|].
    destruct (default_of_some g) as [v Hv]; [apply H; left; reflexivity|]. exists v. rewrite Hv. reflexivity. }
  destruct Hv as [v Hv]. exists (v :: c). constructor; assumption.
Qed.
Lemma values_fun p sch c c' : values p sch c -> values p sch c' -> c = c'.
Proof.
  intros H. revert c'. induction H as [|g v sch c Hv _ IH]; intros c' H'; inversion H' as [|? v' ? c2 Hv' H2]; subst; [reflexivity|].
  f_equal; [congruence|apply IH, H2].
Qed.

Lemma word_forms_length w : is_word w -> length (w_forms w) = length (INVERTED_WORDS_CACHES (w_type w)).
Proof.
  intros [_ H]. unfold Word in H. rewrite WORDS_CACHES_length in H. destruct (Nat.eqb_spec (length (w_forms w)) (length (INVERTED_WORDS_CACHES (w_type w)))) as [E|E]; [exact E|discriminate].
Qed.
Lemma is_word_iff w : is_word w <-> is_properties (w_props w) /\ length (w_forms w) = length (INVERTED_WORDS_CACHES (w_type w)).
Proof.
  split; [intros H; split; [apply H|apply word_forms_length, H]|]. intros [Hp Hl]. split; [exact Hp|].
  unfold Word. rewrite WORDS_CACHES_length, Hl, Nat.eqb_refl. destruct w; reflexivity.
Qed.

Lemma word__form_index w p c : is_word w -> is_properties p -> values p (schema (w_type w)) c ->
  exists i f, raw_index (w_type w) (map Some c) = Ok i /\ word__form w p = Ok f /\ nth_error (w_forms w) i = Some f.
Proof.
  intros Hw Hp Hc. destruct (raw_index_spec (w_type w) c (values_combination _ _ _ (is_properties_wf p Hp) Hc)) as (i & Hi & Hlt).
  rewrite <- (word_forms_length w Hw) in Hlt. destruct (py_nth_lt (w_forms w) i Hlt) as (f & Hf & _).
  exists i, f. split; [exact Hi|]. unfold word__form. rewrite (values_raw_key p _ c Hc). simpl. rewrite Hi. simpl.
  split; [exact Hf|]. apply py_nth_ok, Hf.
Qed.
Lemma word__form_total w p : is_word w -> is_properties p -> exists f, word__form w p = Ok f /\ In f (w_forms w).
Proof.
  intros Hw Hp. destruct (values_exist p (schema (w_type w)) (schema_no_word_type (w_type w))) as [c Hc].
  destruct (word__form_index w p c Hw Hp Hc) as (i & f & _ & H1 & H2). exists f. split; [exact H1|].
  apply nth_error_In in H2. exact H2.
Qed.
Lemma word__form_slot w p c i k : is_word w -> is_properties p -> values p (schema (w_type w)) c ->
  slot (w_type w) i k -> agrees c k -> exists f, word__form w p = Ok f /\ nth_error (w_forms w) i = Some f.
Proof.
  intros Hw Hp Hc Hk Ha. destruct (word__form_index w p c Hw Hp Hc) as (j & f & H1 & H2 & H3).
  rewrite (raw_index_slot (w_type w) c i k (values_combination _ _ _ (is_properties_wf p Hp) Hc) Hk Ha) in H1.
  injection H1 as <-. exists f. auto.
Qed.
Lemma word__form_ext w p q : (forall g, In g (schema (w_type w)) -> pget p g = pget q g) -> word__form w p = word__form w q.
Proof.
  intros H. unfold word__form, get_raw_key. rewrite (mapM_ext_in (pget p) (pget q)); [reflexivity|exact H].
Qed.
Lemma merged_ok p q : is_properties p -> is_properties q -> is_properties (Properties [AProps p; AProps q]).
Proof. intros Hp Hq. apply Properties_ok. intros d [[= <-]|[[= <-]|[]]]; assumption. Qed.

Lemma requested_values w p c : is_word w -> is_properties p ->
  (requested w p c <-> values (Properties [AProps p; AProps (w_props w)]) (schema (w_type w)) c).
Proof.
  intros [Hw _] Hp. unfold requested, values.
  assert (G : forall g v, value_from [w_props w; p] g (Some v) <-> pget (Properties [AProps p; AProps (w_props w)]) g = Ok (Some v)).
  { intros g v. apply (value_from_Properties [w_props w; p] g). repeat constructor; apply is_properties_wf; assumption. }
  split; intros H; induction H; constructor; auto; apply G; assumption.
Qed.
Lemma requested_exists w p : is_word w -> is_properties p -> exists c, requested w p c.
Proof.
  intros Hw Hp. destruct (values_exist (Properties [AProps p; AProps (w_props w)]) (schema (w_type w)) (schema_no_word_type _)) as [c Hc].
  exists c. apply requested_values; assumption.
Qed.
Lemma requested_combination w p c : is_word w -> is_properties p -> requested w p c -> combination (schema (w_type w)) c.
Proof.
  intros Hw Hp H. apply requested_values in H; [|assumption|assumption]. apply (values_combination _ _ _) in H; [exact H|].
  apply is_properties_wf, merged_ok; [exact Hp|apply Hw].
Qed.
Lemma word_form_index w p c : is_word w -> is_properties p -> requested w p c ->
  exists i f, raw_index (w_type w) (map Some c) = Ok i /\ word_form w p = Ok f /\ nth_error (w_forms w) i = Some f.
Proof.
  intros Hw Hp Hr. apply (word__form_index w); [exact Hw|apply merged_ok; [exact Hp|apply Hw]|]. apply requested_values; assumption.
Qed.

(** ** banned combinations of the shipped tables *)
Definition banned_check (t : word_type) : bool :=
  let p1 := raw_cache_phase1 (INVERTED_WORDS_CACHES t) (schema t) in
  match RAW_WORDS_CACHES t with
  | Err _ => false
  | Ok cache =>
      let p1k := dkeys p1 in
      forallb (fun k => if dmem key_eqb k p1 then true
                 else match get_nearest_key k p1k with
                 | None => false
                 | Some b => opt_eqb Nat.eqb (dget key_eqb k cache) (dget key_eqb b p1)
                 end) (full_keys_generator (schema t))
  end.
Lemma banned_check_ok t : banned_check t = true.
Proof. revert t. apply all_word_types_forallb. vm_compute. reflexivity. Qed.
Lemma schema_short t : length (schema t) <= 6.
Proof. destruct t; simpl; lia. Qed.
Lemma not_less_similar c a b : length c <= 20 ->
  f_gt (similarity c b) (similarity c a) = false -> at_least_as_similar c a b.
Proof.
  intros Hl H. unfold at_least_as_similar.
  destruct (Nat.lt_trichotomy (match_count c b) (match_count c a)) as [Hc|[Hc|Hc]]; [left; exact Hc| |].
  - right. split; [congruence|]. destruct (Nat.le_gt_cases (match_sum c b) (match_sum c a)) as [Hs|Hs]; [exact Hs|].
    exfalso. rewrite (similarity_priority c b a) in H; [discriminate|exact Hl|right; auto].
  - exfalso. rewrite (similarity_priority c b a) in H; [discriminate|exact Hl|left; exact Hc].
Qed.
Lemma combination_length sch c : combination sch c -> length c = length sch.
Proof. intros H. induction H; simpl; congruence. Qed.
Lemma banned_lookup t c : combination (schema t) c -> (forall i k, slot t i k -> ~ agrees c k) ->
  exists c' i k, combination (schema t) c' /\ slot t i k /\ agrees c' k /\
    (forall c2 j k2, combination (schema t) c2 -> slot t j k2 -> agrees c2 k2 -> at_least_as_similar (map Some c) (map Some c') (map Some c2)) /\
    raw_index t (map Some c) = Ok i.
Proof.
  intros Hc Hno. pose proof (banned_check_ok t) as H. unfold banned_check in H. cbv zeta in H.
  destruct (RAW_WORDS_CACHES t) as [cache|] eqn:Ecache; [|discriminate].
  assert (Hfull : In (map Some c) (full_keys_generator (schema t))) by (apply full_keys_spec; exists c; auto).
  rewrite forallb_forall in H. specialize (H _ Hfull). unfold dmem in H.
  pose proof (phase1_spec (schema t) (RESTRICTIONS t) (RESTRICTED_KEY_PARTS t)) as Hp1. rewrite <- INVERTED_eq in Hp1.
  destruct (dget key_eqb (map Some c) (raw_cache_phase1 (INVERTED_WORDS_CACHES t) (schema t))) as [j|] eqn:E1.
  { exfalso. apply Hp1 in E1 as (c0 & k & _ & E & Hk & Ha). apply Some_inj_map in E. subst c0. exact (Hno j k Hk Ha). }
  destruct (get_nearest_key (map Some c) (dkeys (raw_cache_phase1 (INVERTED_WORDS_CACHES t) (schema t)))) as [b|] eqn:En; [|discriminate].
  apply get_nearest_key_iff in En. pose proof (nearest_in _ _ _ En) as Hin.
  apply (dmem_iff _ key_eqb_ok) in Hin. unfold dmem in Hin.
  destruct (dget key_eqb b (raw_cache_phase1 (INVERTED_WORDS_CACHES t) (schema t))) as [i|] eqn:Eb; [|discriminate].
  pose proof Eb as Eb'. apply Hp1 in Eb' as (c' & k & Hc' & -> & Hk & Ha). exists c', i, k.
  split; [exact Hc'|]. split; [exact Hk|]. split; [exact Ha|]. split.
  - intros c2 j k2 Hc2 Hk2 Ha2. apply not_less_similar; [rewrite map_length, (combination_length _ _ Hc); pose proof (schema_short t); lia|].
    destruct En as (l1 & l2 & _ & Hmax & _). apply Hmax. apply (dmem_iff _ key_eqb_ok). unfold dmem.
    rewrite (proj2 (Hp1 (map Some c2) j)); [reflexivity|]. exists c2, k2. auto.
  - unfold raw_index. rewrite Ecache. simpl. destruct (dget key_eqb (map Some c) cache) as [i'|]; simpl in H; [|discriminate].
    apply Nat.eqb_eq in H. subst. reflexivity.
Qed.
Lemma countable_singular_lookup x : In x (records R_CASE) ->
  exists i, slot WT_NOUN i [Some NOUN_FORM_NORMAL; Some NUMBER_SINGULAR; Some x] /\
    raw_index WT_NOUN (map Some [NOUN_FORM_COUNTABLE; NUMBER_SINGULAR; x]) = Ok i.
Proof.
  intros H. simpl in H. destruct H as [<-|[<-|[<-|[<-|[<-|[<-|[]]]]]]];
    [exists 0|exists 1|exists 2|exists 3|exists 4|exists 5]; split; vm_compute; reflexivity.
Qed.
Definition imperative_banned (c : list prop) : bool :=
  match c with
  | [form; _; number; person; _] =>
      prop_eqb form VERB_FORM_IMPERATIVE && (prop_eqb person PERSON_THIRD || (prop_eqb person PERSON_FIRST && prop_eqb number NUMBER_SINGULAR))
  | _ => false
  end.
Fixpoint unSome (k : key) : list prop := match k with Some p :: k' => p :: unSome k' | _ => [] end.
Lemma unSome_map c : unSome (map Some c) = c.
Proof. induction c; simpl; congruence. Qed.
Definition imperative_ok (cache : result (dict key nat)) : bool :=
  match cache with
  | Err _ => false
  | Ok cache => forallb (fun k => if imperative_banned (unSome k) then opt_eqb Nat.eqb (dget key_eqb k cache) (Some 0) else true) (full_keys_generator (schema WT_VERB))
  end.
Lemma imperative_check_ok : imperative_ok (RAW_WORDS_CACHES WT_VERB) = true.
Proof. vm_compute. reflexivity. Qed.
Lemma imperative_use cache c : imperative_ok cache = true -> combination (schema WT_VERB) c -> imperative_banned c = true ->
  (cache' <- cache ;; match dget key_eqb (map Some c) cache' with Some i => Ok i | None => Err KeyError end) = Ok 0.
Proof.
  intros H Hc Hb. destruct cache as [cache|]; [|discriminate]. unfold imperative_ok in H. rewrite forallb_forall in H.
  assert (Hfull : In (map Some c) (full_keys_generator (schema WT_VERB))) by (apply full_keys_spec; exists c; auto).
  specialize (H _ Hfull). rewrite unSome_map, Hb in H. simpl bind.
  destruct (dget key_eqb (map Some c) cache) as [i|]; simpl in H; [|discriminate]. apply Nat.eqb_eq in H. subst. reflexivity.
Qed.
Lemma imperative_lookup c : combination (schema WT_VERB) c -> imperative_banned c = true -> raw_index WT_VERB (map Some c) = Ok 0.
Proof. exact (imperative_use (RAW_WORDS_CACHES WT_VERB) c imperative_check_ok). Qed.

(** ** exact ties between slots are resolved to the earlier slot *)
(** the pairs of sets of matching positions (of keys with at most 6 elements) that have equal exact measure but
    different float measure *)
Definition tied (p q : list nat) : bool := if Nat.eqb (length p) (length q) then Nat.eqb (list_sum p) (list_sum q) else false.
Definition tie_violations : list (list nat * list nat) :=
  let rows := map mask_row (all_masks 6) in
  flat_map (fun r1 => flat_map (fun r2 => if tied (fst r1) (fst r2) then if f_gt (snd r1) (snd r2) then [(fst r1, fst r2)] else [] else []) rows) rows.
Definition violating (V : list (list nat * list nat)) (p q : list nat) : bool :=
  existsb (fun e => if list_eqb Nat.eqb p (fst e) then list_eqb Nat.eqb q (snd e) else false) V.
Definition covered (r1 r2 : list nat * spec_float) : bool :=
  if tied (fst r1) (fst r2) then if f_gt (snd r1) (snd r2) then violating tie_violations (fst r1) (fst r2) else true else true.
Lemma covered_6 : sweep 6 covered = true.
Proof. vm_compute. reflexivity. Qed.
Definition row_of (k a : key) : (nat * nat) * list nat := let p := matching 0 k a in ((length p, list_sum p), p).
Definition tie_ok (V : list (list nat * list nat)) (x y : (nat * nat) * list nat) : bool :=   (* x before y *)
  if Nat.eqb (fst (fst x)) (fst (fst y)) then
    if Nat.eqb (snd (fst x)) (snd (fst y)) then negb (violating V (snd y) (snd x)) else true
  else true.
Fixpoint row_ok (V : list (list nat * list nat)) (l : list ((nat * nat) * list nat)) : bool :=
  match l with [] => true | x :: l' => if forallb (tie_ok V x) l' then row_ok V l' else false end.
Definition tie_check (t : word_type) : bool :=
  let ks := INVERTED_WORDS_CACHES t in let V := tie_violations in forallb (fun k => row_ok V (map (row_of k) ks)) ks.
Lemma tie_check_ok t : tie_check t = true.
Proof. revert t. apply all_word_types_forallb. vm_compute. reflexivity. Qed.
Lemma row_ok_nth V l : row_ok V l = true -> forall i j x y, i < j -> nth_error l i = Some x -> nth_error l j = Some y -> tie_ok V x y = true.
Proof.
  induction l as [|a l IH]; intros H i j x y Hij Hx Hy; [destruct i; discriminate|]. simpl in H.
  destruct (forallb (tie_ok V a) l) eqn:E; [|discriminate]. destruct j as [|j]; [lia|]. simpl in Hy. destruct i as [|i]; simpl in Hx.
  - injection Hx as <-. rewrite forallb_forall in E. apply E. apply nth_error_In in Hy. exact Hy.
  - apply (IH H i j); [lia|exact Hx|exact Hy].
Qed.
Lemma slot_tie t n i j k a b : slot t n k -> slot t i a -> slot t j b -> i < j ->
  match_count k a = match_count k b -> match_sum k a = match_sum k b -> f_gt (similarity k b) (similarity k a) = false.
Proof.
  intros Hk Ha Hb Hij H1 H2. pose proof (slot_length t n k Hk) as Hlen. pose proof (tie_check_ok t) as H.
  unfold tie_check in H. cbv zeta in H. rewrite forallb_forall in H. apply nth_error_In in Hk. specialize (H k Hk).
  assert (G : tie_ok tie_violations (row_of k a) (row_of k b) = true).
  { apply (row_ok_nth _ _ H i j); [exact Hij| |]; rewrite nth_error_map; [rewrite Ha|rewrite Hb]; reflexivity. }
  unfold tie_ok, row_of in G. cbv zeta in G. cbn [fst snd] in G. unfold match_count, match_sum in H1, H2. rewrite H1, H2, !Nat.eqb_refl in G.
  apply negb_true_iff in G. pose proof (schema_short t) as Hs.
  assert (C := sweep_use 6 covered covered_6 k b k a ltac:(lia) ltac:(lia)). unfold covered, tied in C. cbn [fst snd] in C.
  rewrite H1, H2, !Nat.eqb_refl, G in C. destruct (f_gt (similarity k b) (similarity k a)); [discriminate|reflexivity].
Qed.
