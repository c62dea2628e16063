(** * PropSlots: C07-C14 *)
From Coq Require Import Lia.
From Verif Require Import PyBase PyFloat Relations Restrictions Logic Data Words SpecProps SpecSlots
  PyBaseFacts PropsFacts FloatFacts NearestFacts SlotFacts LookupFacts.

(** ** C07 *)
(** for any schema, restrictions and banned parts *)
Theorem C07_slots : forall sch restr parts k,
  In k (restricted_keys_generator sch restr parts) <-> slot_key restr sch k /\ ~ banned parts k.
Proof. exact restricted_keys_spec. Qed.
(** in particular for the shipped tables *)
Theorem C07_shipped_slots : forall t k,
  (exists i, slot t i k) <-> slot_key (RESTRICTIONS t) (schema t) k /\ ~ banned (RESTRICTED_KEY_PARTS t) k.
Proof.
  intros t k. unfold slot. rewrite <- in_nth_error, INVERTED_eq. apply restricted_keys_spec.
Qed.
(** an infinitive has no other properties; an adjective slot of the short form has no case *)
Example C07_case :
  (exists i, slot WT_VERB i [Some VERB_FORM_INFINITIVE; None; None; None; None]) /\
  ~ (exists i, slot WT_NOUN i [Some NOUN_FORM_COUNTABLE; Some NUMBER_SINGULAR; Some CASE_DATIVE]) /\
  banned (RESTRICTED_KEY_PARTS WT_NOUN) [Some NOUN_FORM_COUNTABLE; Some NUMBER_SINGULAR; Some CASE_DATIVE].
Proof.
  split; [exists 0; vm_compute; reflexivity|].
  assert (H : banned (RESTRICTED_KEY_PARTS WT_NOUN) [Some NOUN_FORM_COUNTABLE; Some NUMBER_SINGULAR; Some CASE_DATIVE]).
  { exists [NOUN_FORM_COUNTABLE; NUMBER_SINGULAR]. split; [left; reflexivity|]. intros p [<-|[<-|[]]]; simpl; auto. }
  split; [|exact H]. intros Hs. apply C07_shipped_slots in Hs. apply Hs, H.
Qed.

(** ** C08 *)
(** key->number and number->key are inverse; numbers are 0..n-1 (the positions of a list) *)
Theorem C08_bijection : forall sch restr parts,
  let (numbers, keys) := get_cache sch restr parts in
  (forall k i, dget key_eqb k numbers = Some i <-> nth_error keys i = Some k) /\
  length numbers = length keys /\ NoDup keys.
Proof.
  intros sch restr parts. destruct (get_cache sch restr parts) as [numbers keys] eqn:E.
  assert (H1 := cache_dget sch restr parts). assert (H2 := cache_length sch restr parts).
  assert (H3 : snd (get_cache sch restr parts) = restricted_keys_generator sch restr parts) by (rewrite get_cache_eq; reflexivity).
  rewrite E in *. simpl in *. split; [exact H1|]. split; [exact H2|]. rewrite H3. apply restricted_keys_nodup.
Qed.
Theorem C08_declaration_order : forall sch restr parts i j a b,
  let keys := snd (get_cache sch restr parts) in
  i < j -> nth_error keys i = Some a -> nth_error keys j = Some b -> key_before sch a b.
Proof.
  intros sch restr parts i j a b. rewrite get_cache_eq. simpl. apply ao_nth, restricted_keys_ordered.
Qed.
Theorem C08_forms_number_and_keys : forall t,
  get_forms_number t = length (INVERTED_WORDS_CACHES t) /\
  (forall i, nth_error (get_keys t) i = option_map Some (nth_error (INVERTED_WORDS_CACHES t) i)).
Proof.
  intros t. split; [apply WORDS_CACHES_length|]. intros i. rewrite <- nth_error_map. f_equal.
  apply (list_eqb_ok _ (opt_eqb_ok _ key_eqb_ok)). revert t. apply all_word_types_forallb. vm_compute. reflexivity.
Qed.
Example C08_case : map get_forms_number all_word_types = [18; 101; 48; 20; 148; 1; 1; 3] /\
  slot WT_NOUN 1 [Some NOUN_FORM_NORMAL; Some NUMBER_SINGULAR; Some CASE_GENITIVE] /\
  key_before (schema WT_NOUN) [Some NOUN_FORM_NORMAL; Some NUMBER_SINGULAR; Some CASE_GENITIVE] [Some NOUN_FORM_NORMAL; Some NUMBER_PLURAL; Some CASE_NOMINATIVE].
Proof.
  split; [vm_compute; reflexivity|]. split; [vm_compute; reflexivity|].
  exists 1, R_NUMBER, NUMBER_SINGULAR, NUMBER_PLURAL. repeat split. exists [], [], []. reflexivity.
Qed.

(** ** C09 *)
Theorem C09_exactly_one_unrestricted_key : forall sch restr c, combination sch c ->
  exists k, (slot_key restr sch k /\ agrees c k) /\ forall k', slot_key restr sch k' /\ agrees c k' -> k' = k.
Proof.
  intros sch restr c Hc. destruct (unrestricted_key_unique restr sch c Hc) as (k & H1 & H2 & H3). exists k.
  split; [split; [apply keys_generator_spec, H1|exact H2]|]. intros k' [H4 H5]. apply H3; [apply keys_generator_spec, H4|exact H5].
Qed.
Theorem C09_at_most_one_slot : forall t c i j k k',
  combination (schema t) c -> slot t i k -> slot t j k' -> agrees c k -> agrees c k' -> i = j.
Proof. intros t c i j k k' Hc H1 H2 H3 H4. exact (proj1 (slot_unique t c i j k k' Hc H1 H2 H3 H4)). Qed.
Theorem C09_one_slot_unless_banned : forall t c k,
  combination (schema t) c -> slot_key (RESTRICTIONS t) (schema t) k -> agrees c k -> ~ banned (RESTRICTED_KEY_PARTS t) k ->
  exists i, slot t i k /\ forall j k', slot t j k' -> agrees c k' -> j = i.
Proof.
  intros t c k Hc Hk Ha Hb. destruct (proj2 (C07_shipped_slots t k) (conj Hk Hb)) as [i Hi]. exists i. split; [exact Hi|].
  intros j k' Hj Ha'. exact (C09_at_most_one_slot t c j i k' k Hc Hj Hi Ha' Ha).
Qed.
(** a plural adjective form of a given gender belongs to a slot without gender *)
Example C09_case : let c := [ADJECTIVE_FORM_FULL; GRADE_POSITIVE; ANIMALITY_ANIMATE; NUMBER_PLURAL; CASE_DATIVE; GENDER_FEMININE] in
  let k := [Some ADJECTIVE_FORM_FULL; Some GRADE_POSITIVE; Some ANIMALITY_ANIMATE; Some NUMBER_PLURAL; Some CASE_DATIVE; None] in
  combination (schema WT_ADJECTIVE) c /\ agrees c k /\ (exists i, slot WT_ADJECTIVE i k).
Proof.
  assert (Ha : agrees [ADJECTIVE_FORM_FULL; GRADE_POSITIVE; ANIMALITY_ANIMATE; NUMBER_PLURAL; CASE_DATIVE; GENDER_FEMININE]
    [Some ADJECTIVE_FORM_FULL; Some GRADE_POSITIVE; Some ANIMALITY_ANIMATE; Some NUMBER_PLURAL; Some CASE_DATIVE; None]) by (repeat constructor; auto).
  split; [|split; [exact Ha|]].
  - repeat (apply Forall2_cons; [simpl; tauto|]). apply Forall2_nil.
  - exists 20. vm_compute. reflexivity.
Qed.

(** ** C10 *)
Theorem C10_form_total : forall w p, is_word w -> is_properties p -> exists f, word_form w p = Ok f /\ In f (w_forms w).
Proof. intros w p Hw Hp. apply word__form_total; [exact Hw|]. apply merged_ok; [exact Hp|apply Hw]. Qed.
Theorem C10_normal_form_total : forall w, is_word w -> exists f, normal_form w = Ok f /\ In f (w_forms w).
Proof. intros w Hw. apply C10_form_total; [exact Hw|apply Hw]. Qed.
Definition noun_forms : list str :=
  [u "монета"; u "монеты"; u "монете"; u "монету"; u "монетой"; u "монете";
   u "монеты"; u "монет"; u "монетам"; u "монеты"; u "монетами"; u "монетах";
   u "монеты"; u "монет"; u "монетам"; u "монеты"; u "монетами"; u "монетах"].
Definition coin : word := {| w_type := WT_NOUN; w_forms := noun_forms; w_props := Properties [AProp ANIMALITY_INANIMATE; AProp GENDER_FEMININE] |}.
Lemma coin_is_word : is_word coin.
Proof.
  split; [apply Properties_ok; intros d H; simpl in H; repeat (destruct H as [[=]|H]); destruct H|vm_compute; reflexivity].
Qed.
Example C10_case : is_word coin /\ word_form coin (Properties [AProp CASE_GENITIVE; AProp NUMBER_PLURAL]) = Ok (u "монет") /\ normal_form coin = Ok (u "монета").
Proof. split; [exact coin_is_word|]. vm_compute. auto. Qed.

(** ** C11 *)
Theorem C11_matching_slot : forall w p c i k,
  is_word w -> is_properties p ->
  requested w p c -> slot (w_type w) i k -> agrees c k ->
  exists f, word_form w p = Ok f /\ nth_error (w_forms w) i = Some f.
Proof.
  intros w p c i k Hw Hp Hr Hk Ha. apply (word__form_slot w _ c i k); try assumption.
  - apply merged_ok; [exact Hp|apply Hw].
  - apply requested_values; assumption.
Qed.
(** there always is a requested combination, so the theorem speaks about every call *)
Theorem C11_requested : forall w p, is_word w -> is_properties p ->
  exists c, requested w p c /\ combination (schema (w_type w)) c /\ forall c', requested w p c' -> c' = c.
Proof.
  intros w p Hw Hp. destruct (requested_exists w p Hw Hp) as [c Hc]. exists c. split; [exact Hc|].
  split; [exact (requested_combination w p c Hw Hp Hc)|]. intros c' Hc'. apply requested_values in Hc, Hc'; try assumption.
  exact (values_fun _ _ _ _ Hc' Hc).
Qed.
(** properties outside of the schema do not matter *)
Theorem C11_other_groups_ignored : forall w p q, is_word w -> is_properties p -> is_properties q ->
  (forall g v, In g (schema (w_type w)) -> (holds p g v <-> holds q g v)) -> word_form w p = word_form w q.
Proof.
  intros w p q Hw Hp Hq H. apply word__form_ext. intros g Hg. rewrite !pget_spec, !dget_Properties by
    (apply good_args_wf; intros d [[= <-]|[[= <-]|[]]]; first [assumption|apply Hw]).
  simpl. destruct (dget rel_eqb g (w_props w)); [reflexivity|].
  assert (E : dget rel_eqb g p = dget rel_eqb g q); [|rewrite E; reflexivity].
  apply is_properties_wf in Hp, Hq. destruct (dget rel_eqb g p) as [v|] eqn:E1.
  - symmetry. apply holds_dget; [exact Hq|]. apply H; [exact Hg|]. apply holds_dget; assumption.
  - destruct (dget rel_eqb g q) as [v|] eqn:E2; [|reflexivity].
    apply (holds_dget q g v Hq) in E2. apply H in E2; [|exact Hg]. apply holds_dget in E2; [|exact Hp]. congruence.
Qed.
(** a plural-only noun answers in the plural whatever is asked *)
Definition scissors : word := {| w_type := WT_NOUN; w_forms := noun_forms; w_props := Properties [AProp NUMBER_PLURAL] |}.
Example C11_case : is_word scissors /\
  requested scissors (Properties [AProp NUMBER_SINGULAR; AProp CASE_DATIVE]) [NOUN_FORM_NORMAL; NUMBER_PLURAL; CASE_DATIVE] /\
  slot WT_NOUN 8 [Some NOUN_FORM_NORMAL; Some NUMBER_PLURAL; Some CASE_DATIVE] /\
  word_form scissors (Properties [AProp NUMBER_SINGULAR; AProp CASE_DATIVE]) = Ok (u "монетам").
Proof.
  split; [|split; [|vm_compute; auto]].
  - split; [apply Properties_ok; intros d H; simpl in H; repeat (destruct H as [[=]|H]); destruct H|vm_compute; reflexivity].
  - constructor; [|constructor; [|constructor; [|constructor]]].
    + apply vf_next; [intros v [[=]|[]]|]. apply vf_next; [intros v [[=]|[[=]|[]]]|]. apply vf_default.
    + apply vf_here. left. reflexivity.
    + apply vf_next; [intros v [[=]|[]]|]. apply vf_here. right. left. reflexivity.
Qed.

(** ** C12 *)
(** a combination without a slot is answered with the slot of a most similar combination that has one *)
Theorem C12_nearest_fallback : forall w p c,
  is_word w -> is_properties p -> requested w p c -> (forall i k, slot (w_type w) i k -> ~ agrees c k) ->
  exists c' i k f, combination (schema (w_type w)) c' /\ slot (w_type w) i k /\ agrees c' k /\
    (forall c2 j k2, combination (schema (w_type w)) c2 -> slot (w_type w) j k2 -> agrees c2 k2 ->
       at_least_as_similar (map Some c) (map Some c') (map Some c2)) /\
    word_form w p = Ok f /\ nth_error (w_forms w) i = Some f.
Proof.
  intros w p c Hw Hp Hr Hno. destruct (banned_lookup (w_type w) c (requested_combination w p c Hw Hp Hr) Hno) as (c' & i & k & H1 & H2 & H3 & H4 & H5).
  destruct (word_form_index w p c Hw Hp Hr) as (j & f & Hj & Hf & Hn). rewrite H5 in Hj. injection Hj as <-.
  exists c', i, k, f. auto 10.
Qed.
(** a countable singular noun is answered with the normal singular of the same case *)
Theorem C12_countable_singular : forall w p x,
  is_word w -> is_properties p -> w_type w = WT_NOUN -> requested w p [NOUN_FORM_COUNTABLE; NUMBER_SINGULAR; x] ->
  exists i f, slot WT_NOUN i [Some NOUN_FORM_NORMAL; Some NUMBER_SINGULAR; Some x] /\ word_form w p = Ok f /\ nth_error (w_forms w) i = Some f.
Proof.
  intros w p x Hw Hp Ht Hr. assert (Hc := requested_combination w p _ Hw Hp Hr). rewrite Ht in Hc.
  inversion Hc as [|? ? ? ? _ Hc1]; subst. inversion Hc1 as [|? ? ? ? _ Hc2]; subst. inversion Hc2 as [|? ? ? ? Hx _]; subst.
  destruct (countable_singular_lookup x Hx) as (i & Hs & Hi). destruct (word_form_index w p _ Hw Hp Hr) as (j & f & Hj & Hf & Hn).
  rewrite Ht, Hi in Hj. injection Hj as <-. exists i, f. auto.
Qed.
(** a banned imperative (3rd person, or 1st person singular) is answered with the infinitive, whatever the tense and
    gender (FINDING: not with another imperative form) *)
Theorem C12_banned_imperative : forall w p time number person gender,
  is_word w -> is_properties p -> w_type w = WT_VERB ->
  requested w p [VERB_FORM_IMPERATIVE; time; number; person; gender] ->
  person = PERSON_THIRD \/ (person = PERSON_FIRST /\ number = NUMBER_SINGULAR) ->
  slot WT_VERB 0 [Some VERB_FORM_INFINITIVE; None; None; None; None] /\
  exists f, word_form w p = Ok f /\ nth_error (w_forms w) 0 = Some f.
Proof.
  intros w p time number person gender Hw Hp Ht Hr Hb. split; [vm_compute; reflexivity|].
  assert (Hc := requested_combination w p _ Hw Hp Hr). rewrite Ht in Hc.
  destruct (word_form_index w p _ Hw Hp Hr) as (j & f & Hj & Hf & Hn). rewrite Ht, imperative_lookup in Hj.
  - injection Hj as <-. exists f. auto.
  - exact Hc.
  - destruct Hb as [->|[-> ->]]; reflexivity.
Qed.
Example C12_case : requested coin (Properties [AProp NOUN_FORM_COUNTABLE; AProp NUMBER_SINGULAR; AProp CASE_DATIVE]) [NOUN_FORM_COUNTABLE; NUMBER_SINGULAR; CASE_DATIVE] /\
  word_form coin (Properties [AProp NOUN_FORM_COUNTABLE; AProp NUMBER_SINGULAR; AProp CASE_DATIVE]) = Ok (u "монете").
Proof.
  split; [|vm_compute; reflexivity].
  constructor; [|constructor; [|constructor; [|constructor]]]; (apply vf_next; [intros v H; simpl in H; repeat (destruct H as [[=]|H]); destruct H|apply vf_here; cbn; tauto]).
Qed.

(** ** C13 *)
Theorem C13_none_iff_no_keys : forall k available, get_nearest_key k available = None <-> available = [].
Proof. exact get_nearest_key_none. Qed.
Theorem C13_first_of_the_most_similar : forall k available a,
  get_nearest_key k available = Some a <->
  exists l1 l2, available = l1 ++ a :: l2 /\
    (forall b, In b available -> f_gt (similarity k b) (similarity k a) = false) /\
    (forall b, In b l1 -> f_gt (similarity k a) (similarity k b) = true).
Proof. exact get_nearest_key_iff. Qed.
Theorem C13_available_key_is_its_own_nearest : forall k available,
  length k <= 1000 -> (forall a, In a available -> length a = length k) -> In k available -> get_nearest_key k available = Some k.
Proof. exact nearest_self. Qed.
Example C13_case :
  get_nearest_key [Some NOUN_FORM_COUNTABLE; Some NUMBER_SINGULAR; Some CASE_DATIVE]
    [[Some NOUN_FORM_NORMAL; Some NUMBER_SINGULAR; Some CASE_GENITIVE];
     [Some NOUN_FORM_NORMAL; Some NUMBER_SINGULAR; Some CASE_DATIVE];
     [Some NOUN_FORM_COUNTABLE; Some NUMBER_PLURAL; Some CASE_DATIVE]]
  = Some [Some NOUN_FORM_NORMAL; Some NUMBER_SINGULAR; Some CASE_DATIVE].
Proof. vm_compute. reflexivity. Qed.

(** ** C14 *)
(** the comparison of the float similarities agrees with the exact one (in hundredths), whenever these differ *)
Theorem C14_exact : forall k a b, length k <= 1000 ->
  100 * match_count k b + match_sum k b < 100 * match_count k a + match_sum k a -> f_gt (similarity k a) (similarity k b) = true.
Proof. exact similarity_exact. Qed.
Theorem C14_nearest_is_maximal_exact : forall k available a b, length k <= 1000 ->
  get_nearest_key k available = Some a -> In b available -> 100 * match_count k b + match_sum k b <= 100 * match_count k a + match_sum k a.
Proof.
  intros k available a b Hk H Hb. apply get_nearest_key_iff in H as (l1 & l2 & _ & H & _). specialize (H b Hb).
  destruct (Nat.le_gt_cases (100 * match_count k b + match_sum k b) (100 * match_count k a + match_sum k a)) as [L|L]; [exact L|].
  rewrite (similarity_exact k b a Hk L) in H. discriminate.
Qed.
Theorem C14_priority : forall k a b, length k <= 20 ->
  match_count k b < match_count k a \/ (match_count k a = match_count k b /\ match_sum k b < match_sum k a) ->
  f_gt (similarity k a) (similarity k b) = true.
Proof. exact similarity_priority. Qed.
(** hence the chosen key is maximal in the exact measure *)
Theorem C14_nearest_is_maximal : forall k available a b, length k <= 20 ->
  get_nearest_key k available = Some a -> In b available -> at_least_as_similar k a b.
Proof.
  intros k available a b Hk H Hb. apply get_nearest_key_iff in H as (l1 & l2 & _ & H & _).
  apply not_less_similar; [exact Hk|apply H, Hb].
Qed.
(** from 21 elements on the positions can outweigh the number of matches *)
Theorem C14_priority_refuted : exists k a b, length k = 21 /\ length a = 21 /\ length b = 21 /\ match_count k b < match_count k a /\ get_nearest_key k [b; a] = Some b.
Proof.
  set (x := Some CASE_DATIVE). exists (repeat x 21), (repeat x 11 ++ repeat None 10), (repeat None 11 ++ repeat x 10).
  split; [reflexivity|]. split; [reflexivity|]. split; [reflexivity|]. split; [|vm_compute; reflexivity]. replace (match_count _ (repeat x 11 ++ _)) with 11 by (vm_compute; reflexivity). replace (match_count _ _) with 10 by (vm_compute; reflexivity). repeat constructor.
Qed.
(** FINDING: among keys of equal exact measure the first one is not always chosen *)
Theorem C14_first_of_ties_refuted : exists k a b, length k = 5 /\ length a = 5 /\ length b = 5 /\
  match_count k a = match_count k b /\ match_sum k a = match_sum k b /\ get_nearest_key k [a; b] = Some b.
Proof.
  set (x := Some CASE_DATIVE). exists [x; x; x; x; x], [x; None; x; None; x], [None; x; x; x; None]. vm_compute. auto 10.
Qed.
(** up to 4 elements it is *)
Theorem C14_ties_up_to_four : forall k available a b l1 l2 l3, length k <= 4 ->
  available = l1 ++ a :: l2 ++ b :: l3 -> match_count k a = match_count k b -> match_sum k a = match_sum k b -> a <> b ->
  get_nearest_key k available = Some b -> In b (l1 ++ [a]).
Proof.
  intros k available a b l1 l2 l3 Hk -> H1 H2 Hn H. apply get_nearest_key_iff in H as (m1 & m2 & E & Hmax & Hfirst).
  assert (G : ~ In a m1).
  { intros Ha. apply Hfirst in Ha. rewrite (similarity_tie k b a Hk) in Ha; [discriminate|symmetry; assumption|symmetry; assumption]. }
  clear Hmax Hfirst H1 H2. revert m1 E G. induction l1 as [|x l1 IH]; intros m1 E G; destruct m1 as [|y m1]; simpl in E; injection E as E1 E2.
  - contradiction.
  - subst. exfalso. apply G. left; reflexivity.
  - subst. left. reflexivity.
  - subst. right. apply (IH m1 E2). intros H. apply G. right; exact H.
Qed.
(** and it is for the slots of every shipped word type, so that autofill never meets the anomaly *)
Theorem C14_ties_between_shipped_slots : forall t n i j k a b,
  slot t n k -> slot t i a -> slot t j b -> i < j ->
  match_count k a = match_count k b -> match_sum k a = match_sum k b -> f_gt (similarity k b) (similarity k a) = false.
Proof. exact slot_tie. Qed.
Example C14_case : let k := [Some NOUN_FORM_COUNTABLE; Some NUMBER_SINGULAR; Some CASE_DATIVE] in
  match_count k [Some NOUN_FORM_NORMAL; Some NUMBER_SINGULAR; Some CASE_DATIVE] = 2 /\
  match_sum k [Some NOUN_FORM_NORMAL; Some NUMBER_SINGULAR; Some CASE_DATIVE] = 3 /\
  match_sum k [Some NOUN_FORM_COUNTABLE; Some NUMBER_PLURAL; Some CASE_DATIVE] = 2.
Proof. vm_compute. auto. Qed.
