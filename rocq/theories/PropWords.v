(** * PropWords: C15-C19, C54, C55 *)
From Coq Require Import Lia.
From Verif Require Import PyBase PyFloat Relations Restrictions Logic Data Words SpecProps SpecSlots
  PyBaseFacts PropsFacts FloatFacts NearestFacts SlotFacts LookupFacts SerFacts StrFacts SynFacts WordFacts PropSlots.

(** ** C15 *)
(** n is the number of slots of the type t *)
Definition slots_number (t : word_type) (n : nat) : Prop := forall i, i < n <-> exists k, slot t i k.
Lemma slots_number_iff t n : slots_number t n <-> n = length (INVERTED_WORDS_CACHES t).
Proof.
  split.
  - intros H. destruct (Nat.lt_trichotomy n (length (INVERTED_WORDS_CACHES t))) as [L|[L|L]]; [|exact L|].
    + apply slot_exists in L. apply H in L. lia.
    + apply H in L as [k L]. apply slot_lt in L. lia.
  - intros -> i. split; [apply slot_exists|]. intros [k H]. exact (slot_lt t i k H).
Qed.
Theorem C15_constructor : forall t forms p n, slots_number t n ->
  (length forms = n -> Word t forms p = Ok {| w_type := t; w_forms := forms; w_props := p |}) /\
  (length forms <> n -> Word t forms p = Err (WrongFormsNumberError (length forms) n)).
Proof.
  intros t forms p n H. apply slots_number_iff in H. subst n. unfold Word. rewrite WORDS_CACHES_length.
  destruct (Nat.eqb_spec (length forms) (length (INVERTED_WORDS_CACHES t))) as [E|E]; split; intros H; try reflexivity; contradiction.
Qed.
Theorem C15_slots_number : forall t, slots_number t (get_forms_number t).
Proof. intros t. apply slots_number_iff. unfold get_forms_number. apply WORDS_CACHES_length. Qed.
Example C15_case : slots_number WT_NOUN 18 /\ Word WT_NOUN [u "a"] [] = Err (WrongFormsNumberError 1 18).
Proof. split; [apply slots_number_iff; vm_compute; reflexivity|vm_compute; reflexivity]. Qed.

(** ** C16 *)
(** also through JSON (keys as decimal strings) and with the property entries in any order *)
Theorem C16_word_roundtrip : forall w, is_word w -> exists d, serialize_word w = Ok d /\
  (exists w', deserialize_word d = Ok w' /\ word_eqb w' w = true) /\
  forall ps, json_trip (wd_props d) ps ->
    exists w', deserialize_word {| wd_type := wd_type d; wd_forms := wd_forms d; wd_props := ps |} = Ok w' /\ is_word w' /\ word_eqb w' w = true /\
      w_type w' = w_type w /\ w_forms w' = w_forms w /\ same_props (w_props w') (w_props w).
Proof.
  intros w Hw. destruct (word_roundtrip w Hw) as (d & Hd & H). exists d. split; [exact Hd|]. split.
  - destruct (H (wd_props d)) as (w' & H1 & H2 & H3).
    + apply json_trip_refl.
    + exists w'. split; [|exact H3]. destruct d; exact H1.
  - intros ps Hps. destruct (H ps Hps) as (w' & H1 & H2 & H3). exists w'. split; [exact H1|]. split; [exact H2|]. split; [exact H3|].
    apply word_eqb_iff in H3; [|assumption|assumption]. tauto.
Qed.
Theorem C16_wrong_number : forall d t n q, wt_value t = wd_type d -> slots_number t n -> deserialize_props (wd_props d) = Ok q ->
  length (wd_forms d) <> n -> deserialize_word d = Err (WrongFormsNumberError (length (wd_forms d)) n).
Proof.
  intros d t n q Ht Hn Hq Hl. unfold deserialize_word. rewrite (proj2 (wt_call_iff _ t) Ht), Hq. simpl.
  apply (C15_constructor t (wd_forms d) q n Hn), Hl.
Qed.
Theorem C16_unknown_type : forall d, (forall t, wt_value t <> wd_type d) -> deserialize_word d = Err NotExternalValueError.
Proof.
  intros d H. unfold deserialize_word. destruct (wt_call (wd_type d)) as [t|] eqn:E; [|reflexivity].
  apply wt_call_iff in E. destruct (H t E).
Qed.
Example C16_case : exists d w', serialize_word coin = Ok d /\ wd_type d = 0%Z /\ length (wd_props d) = 2 /\ deserialize_word d = Ok w' /\ word_eqb w' coin = true.
Proof. eexists. eexists. do 4 (split; [vm_compute; reflexivity|]). vm_compute; reflexivity. Qed.

(** ** C17 *)
(** never raises; given forms, type, properties and length are kept *)
Theorem C17_keeps : forall w, is_word w -> exists w', autofill_missed_forms w = Ok w' /\ is_word w' /\
  w_type w' = w_type w /\ w_props w' = w_props w /\ length (w_forms w') = length (w_forms w) /\
  forall i f, nth_error (w_forms w) i = Some f -> f <> [] -> nth_error (w_forms w') i = Some f.
Proof.
  intros w Hw. destruct (autofill_spec w Hw) as (w' & H & Ht & Hp & Hl & Hn). exists w'.
  split; [exact H|]. split; [apply is_word_iff; rewrite Ht, Hp, Hl; apply is_word_iff; exact Hw|].
  repeat split; try assumption. intros i f Hf Hne. rewrite Hn, Hf. simpl. unfold filled. rewrite (proj2 (nonempty_iff f) Hne). reflexivity.
Qed.
(** an empty form gets the text that was given for the first of the most similar slots with a given text *)
Theorem C17_source : forall w w' i k, is_word w -> autofill_missed_forms w = Ok w' ->
  slot (w_type w) i k -> nth_error (w_forms w) i = Some [] ->
  (exists j g, nth_error (w_forms w) j = Some g /\ g <> []) ->
  exists j kj g, slot (w_type w) j kj /\ nth_error (w_forms w) j = Some g /\ g <> [] /\ nth_error (w_forms w') i = Some g /\
    forall j' k' g', slot (w_type w) j' k' -> nth_error (w_forms w) j' = Some g' -> g' <> [] ->
      at_least_as_similar k kj k' /\ (j' < j -> ~ at_least_as_similar k k' kj).
Proof.
  intros w w' i k Hw H Hk Hi Hex. destruct (autofill_spec w Hw) as (w1 & H1 & _ & _ & _ & Hn). rewrite H in H1. injection H1 as <-.
  destruct (filled_source (w_type w) (w_forms w) i k [] (word_forms_length w Hw) Hk Hi eq_refl Hex) as (j & kj & g & G1 & G2 & G3 & G4 & G5).
  exists j, kj, g. repeat split; try assumption; try (apply (G5 j' k' g'); assumption). rewrite Hn, Hi. simpl. rewrite G4. reflexivity.
Qed.
Theorem C17_no_gaps_left : forall w w', is_word w -> autofill_missed_forms w = Ok w' ->
  (exists j g, nth_error (w_forms w) j = Some g /\ g <> []) -> ~ In [] (w_forms w').
Proof.
  intros w w' Hw H Hex Hin. destruct (autofill_spec w Hw) as (w1 & H1 & _ & _ & Hl & Hn). rewrite H in H1. injection H1 as <-.
  apply In_nth_error in Hin as [i Hi]. destruct (nth_error (w_forms w) i) as [f|] eqn:Ef.
  - destruct f as [|c f].
    + destruct (slot_exists (w_type w) i) as [k Hk].
      { rewrite <- (word_forms_length w Hw). apply nth_error_Some. congruence. }
      destruct (C17_source w w' i k Hw H Hk Ef Hex) as (j & kj & g & _ & _ & Hg & Hg' & _).
      assert (E : Some g = Some []) by (etransitivity; [symmetry; exact Hg'|exact Hi]). injection E as E. exact (Hg E).
    + rewrite Hn, Ef in Hi. discriminate.
  - rewrite Hn, Ef in Hi. discriminate.
Qed.
Theorem C17_nothing_given : forall w, is_word w -> (forall f, In f (w_forms w) -> f = []) -> autofill_missed_forms w = Ok w.
Proof.
  intros w Hw H. destruct (autofill_spec w Hw) as (w' & E & Ht & Hp & Hl & Hn). rewrite E. f_equal. destruct w, w'; simpl in *. subst. f_equal.
  apply nth_error_ext. intros i. rewrite Hn. destruct (nth_error w_forms i) as [f|] eqn:Ef; [|reflexivity]. simpl. f_equal.
  assert (f = []) by (apply H; apply nth_error_In in Ef; exact Ef). subst f. unfold filled. simpl.
  assert (G : given_keys w_type w_forms = []).
  { destruct (given_keys w_type w_forms) as [|k l] eqn:Eg; [reflexivity|]. exfalso.
    assert (Hin : In k (given_keys w_type w_forms)) by (rewrite Eg; left; reflexivity).
    apply in_given_keys in Hin as (j & g & _ & Hj & Hg). apply nth_error_In in Hj. apply Hg, H, Hj. }
  rewrite G. destruct (nth_error (INVERTED_WORDS_CACHES w_type) i); reflexivity.
Qed.
Theorem C17_idempotent : forall w w', is_word w -> autofill_missed_forms w = Ok w' -> autofill_missed_forms w' = Ok w'.
Proof.
  intros w w' Hw H. destruct (C17_keeps w Hw) as (w1 & H1 & Hw' & _). rewrite H in H1. injection H1 as <-.
  destruct (existsb nonempty (w_forms w)) eqn:E.
  - apply existsb_exists in E as (g & Hg & Hne). apply In_nth_error in Hg as [j Hj]. apply nonempty_iff in Hne.
    assert (Hno := C17_no_gaps_left w w' Hw H (ex_intro _ j (ex_intro _ g (conj Hj Hne)))).
    destruct (autofill_spec w' Hw') as (w2 & E2 & Ht & Hp & Hl & Hn). rewrite E2. f_equal. destruct w2, w'; simpl in *. subst. f_equal.
    apply nth_error_ext. intros i. rewrite Hn. destruct (nth_error w_forms0 i) as [f|] eqn:Ef; [|reflexivity]. simpl. f_equal.
    unfold filled. destruct f; [|reflexivity]. exfalso. apply Hno. apply nth_error_In in Ef. exact Ef.
  - assert (Hall : forall f, In f (w_forms w) -> f = []).
    { intros f Hf. destruct f as [|c f]; [reflexivity|]. assert (existsb nonempty (w_forms w) = true) by (apply existsb_exists; exists (c :: f); auto). congruence. }
    rewrite (C17_nothing_given w Hw Hall) in H. injection H as <-. apply C17_nothing_given; assumption.
Qed.
(** a noun with only the nominative forms given: countable forms come from the plural *)
Definition gappy : word := {| w_type := WT_NOUN;
  w_forms := [u "кот"; []; []; []; []; []; u "коты"; []; []; []; []; []; []; []; []; []; []; []]; w_props := [] |}.
Example C17_case : is_word gappy /\ exists w', autofill_missed_forms gappy = Ok w' /\ ~ In [] (w_forms w') /\ nth_error (w_forms w') 13 = Some (u "коты").
Proof.
  split; [apply is_word_iff; split; [apply wf_is_properties, wf_nil|vm_compute; reflexivity]|].
  eexists. split; [vm_compute; reflexivity|]. split; [|vm_compute; reflexivity].
  intros H. cbn [w_forms] in H. repeat (destruct H as [H|H]; [discriminate|]). destruct H.
Qed.

(** ** C18 *)
Theorem C18_slots_in_order : forall w, is_word w -> exists l, all_forms w = Ok l /\ length l = length (w_forms w) /\
  forall i k, slot (w_type w) i k -> exists f, nth_error l i = Some f /\ is_wordform f /\ wf_word f = w /\ wf_form_props f = wf_props f /\
    forall g v, holds (wf_props f) g v <->
      holds (w_props w) g v \/ ((forall v', ~ holds (w_props w) g v') /\ In (Some v) k /\ rel_of v = g).
Proof.
  intros w Hw. rewrite (all_forms_eq w Hw). eexists. split; [reflexivity|]. split; [rewrite map_length; symmetry; apply word_forms_length, Hw|].
  intros i k Hk. rewrite nth_error_map. unfold slot in Hk. rewrite Hk. simpl. eexists. split; [reflexivity|].
  split; [exists w, (Some (key_props k)), None; repeat split; auto; try (apply Hw); try discriminate; intros q [= <-]; apply is_properties_key|].
  repeat (split; [reflexivity|]). intros g v. unfold WordForm. cbn [wf_props].
  assert (Hwf : wf_args [AProps (key_props k); AProps (w_props w)]).
  { apply good_args_wf. intros d [[= <-]|[[= <-]|[]]]; [apply is_properties_key|apply Hw]. }
  rewrite <- holds_dget by (apply wf_Properties, Hwf). rewrite dget_Properties by exact Hwf. simpl.
  rewrite <- (key_props_holds (w_type w) i k Hk g v).
  assert (Hp : props_wf (w_props w)) by (apply is_properties_wf, Hw).
  assert (Hkp : props_wf (key_props k)) by (apply is_properties_wf, is_properties_key).
  destruct (dget rel_eqb g (w_props w)) as [x|] eqn:E.
  - apply holds_dget in E; [|exact Hp]. split.
    + intros [= <-]. left. exact E.
    + intros [H|[H _]]; [f_equal; exact (holds_fun _ _ _ _ Hp E H)|destruct (H x E)].
  - rewrite holds_none in E. split.
    + intros H. right. split; [exact E|]. apply holds_dget; assumption.
    + intros [H|[_ H]]; [destruct (E v H)|]. apply holds_dget; assumption.
Qed.
(** the text of the i-th form is the form stored for the i-th combination after overriding *)
Theorem C18_texts : forall U w l i k f c p j k',
  is_word w -> all_forms w = Ok l -> slot (w_type w) i k -> nth_error l i = Some f ->
  is_properties p -> (forall g v, holds p g v <-> In (Some v) k /\ rel_of v = g) ->
  requested w p c -> slot (w_type w) j k' -> agrees c k' ->
  exists form, nth_error (w_forms w) j = Some form /\
    (holds (w_props w) R_WORD_CASE WORD_CASE_UPPER -> wf_form U f = match form with [] => Err IndexError | x :: rest => Ok (u_upper U x ++ rest) end) /\
    (~ holds (w_props w) R_WORD_CASE WORD_CASE_UPPER -> wf_form U f = Ok form).
Proof.
  intros U w l i k f c p j k' Hw Hl Hk Hf Hp Hpk Hr Hk' Ha. rewrite (all_forms_eq w Hw) in Hl. injection Hl as <-.
  rewrite nth_error_map in Hf. unfold slot in Hk. rewrite Hk in Hf. simpl in Hf. injection Hf as <-.
  assert (Hsame : same_props p (key_props k)) by (intros g v; rewrite Hpk, (key_props_holds (w_type w) i k Hk); reflexivity).
  assert (Hq : is_properties (Properties [AProps (key_props k); AProps (w_props w)])) by (apply merged_ok; [apply is_properties_key|apply Hw]).
  destruct (C11_matching_slot w p c j k' Hw Hp Hr Hk' Ha) as (form & Hform & Hn).
  assert (E : word_form w (key_props k) = Ok form).
  { rewrite <- Hform. symmetry. apply C11_other_groups_ignored; [exact Hw|exact Hp|apply is_properties_key|]. intros g v _. apply Hsame. }
  exists form. split; [exact Hn|]. unfold wf_form, WordForm. cbn [wf_word wf_form_props].
  assert (Hup : holds (Properties [AProps (key_props k); AProps (w_props w)]) R_WORD_CASE WORD_CASE_UPPER <-> holds (w_props w) R_WORD_CASE WORD_CASE_UPPER).
  { assert (Hwf : wf_args [AProps (key_props k); AProps (w_props w)]) by (apply good_args_wf; intros d [[= <-]|[[= <-]|[]]]; [apply is_properties_key|apply Hw]).
    rewrite <- holds_dget by (apply is_properties_wf, Hq). rewrite dget_Properties by exact Hwf. simpl.
    rewrite <- (holds_dget (w_props w)) by (apply is_properties_wf, Hw).
    destruct (dget rel_eqb R_WORD_CASE (w_props w)); [reflexivity|]. split; [|discriminate]. intros H. exfalso.
    apply holds_dget in H; [|apply is_properties_wf, is_properties_key]. apply (key_props_holds (w_type w) i k Hk) in H as [H Hr'].
    apply (slot_no_case (w_type w) i k Hk) in H. apply H. }
  destruct (get_form_spec U w (Properties [AProps (key_props k); AProps (w_props w)]) form Hq E) as [G1 G2].
  split; intros H; [apply G1, Hup, H|apply G2; intros H'; apply H, Hup, H'].
Qed.
(** in particular for words that fix nothing of their schema *)
Theorem C18_texts_are_the_forms : forall U w l, is_word w -> all_forms w = Ok l ->
  (forall g v, In g (schema (w_type w)) -> ~ holds (w_props w) g v) -> ~ holds (w_props w) R_WORD_CASE WORD_CASE_UPPER ->
  mapM (wf_form U) l = Ok (w_forms w).
Proof.
  intros U w l Hw Hl Hno Hup. apply mapM_ok. assert (Hlen := word_forms_length w Hw).
  assert (Hll : length l = length (w_forms w)).
  { rewrite (all_forms_eq w Hw) in Hl. injection Hl as <-. rewrite map_length. symmetry. exact Hlen. }
  apply Forall2_nth. { exact Hll. } intros i f form Hf Hform.
  destruct (slot_exists (w_type w) i) as [k Hk]. { rewrite <- Hlen. apply nth_error_Some. congruence. }
  destruct (requested_of_key w k i Hw Hk Hno) as (c' & Hc' & Ha').
  destruct (C18_texts U w l i k f c' (key_props k) i k Hw Hl Hk Hf (is_properties_key k) (key_props_holds _ _ _ Hk) Hc' Hk Ha') as (form' & H1 & _ & H2).
  rewrite H2 by exact Hup. congruence.
Qed.
Example C18_case : exists l, all_forms coin = Ok l /\ mapM (wf_form ru_unicode) l = Ok noun_forms /\
  exists l', all_forms scissors = Ok l' /\ option_map (wf_form ru_unicode) (nth_error l' 0) = Some (Ok (u "монеты")).
Proof. eexists. split; [vm_compute; reflexivity|]. split; [vm_compute; reflexivity|]. eexists. split; [vm_compute; reflexivity|vm_compute; reflexivity]. Qed.

(** ** C19 *)
Theorem C19_upper_case : forall U f, is_wordform f -> exists form, word_form (wf_word f) (wf_form_props f) = Ok form /\
  (holds (wf_form_props f) R_WORD_CASE WORD_CASE_UPPER ->
     (form = [] -> wf_form U f = Err IndexError) /\ (forall c rest, form = c :: rest -> wf_form U f = Ok (u_upper U c ++ rest))) /\
  (~ holds (wf_form_props f) R_WORD_CASE WORD_CASE_UPPER -> wf_form U f = Ok form).
Proof.
  intros U f Hf. destruct (wordform_parts f Hf) as (Hw & Hp & Hfp & E & _).
  destruct (C10_form_total (wf_word f) (wf_form_props f) Hw Hfp) as (form & Hform & _). exists form. split; [exact Hform|].
  rewrite <- E in Hform. destruct (get_form_spec U _ _ form Hfp Hform) as [G1 G2]. unfold wf_form. split; [|exact G2].
  intros H. rewrite (G1 H). split; [intros ->; reflexivity|intros c rest ->; reflexivity].
Qed.
(** the two property sets of WordForm(word, properties, form_properties): the fixed properties of the word win over what is given; without
    form_properties the printed form follows properties *)
Definition wordform_layers (w : word) (p : option props) : list props := w_props w :: match p with Some q => [q] | None => [] end.
Theorem C19_attributes : forall w p fp, is_word w -> (forall q, p = Some q -> is_properties q) -> (forall q, fp = Some q -> is_properties q) ->
  let f := WordForm w p fp in
  wf_word f = w /\ is_wordform f /\
  (forall g o, pget (wf_props f) g = Ok o <-> value_from (wordform_layers w p) g o) /\
  (forall g o, pget (wf_form_props f) g = Ok o <-> value_from (wordform_layers w (match fp with Some _ => fp | None => p end)) g o).
Proof.
  intros w p fp Hw Hp Hfp f. split; [reflexivity|]. split; [exists w, p, fp; auto|].
  assert (W : props_wf (w_props w)) by (apply is_properties_wf, Hw).
  assert (L : forall x, (forall q, x = Some q -> is_properties q) -> forall g o,
    pget (match x with None => w_props w | Some q => Properties [AProps q; AProps (w_props w)] end) g = Ok o <-> value_from (wordform_layers w x) g o).
  { intros x Hx g o. symmetry. destruct x as [q|]; unfold wordform_layers.
    - apply (value_from_Properties [w_props w; q] g). constructor; [exact W|]. constructor; [|constructor]. apply is_properties_wf, Hx. reflexivity.
    - rewrite value_from_pget by (constructor; [exact W|constructor]). cbn [map rev app args_get arg_get]. rewrite pget_spec. destruct (dget rel_eqb g (w_props w)); split; congruence. }
  split; [exact (L p Hp)|]. unfold f, WordForm. cbn [wf_form_props]. destruct fp as [q|]; [exact (L (Some q) Hfp)|exact (L p Hp)].
Qed.
Example C19_attributes_case : let f := WordForm coin (Some (Properties [AProp CASE_DATIVE; AProp GENDER_NEUTER])) (Some (Properties [AProp CASE_GENITIVE])) in
  pget (wf_props f) R_CASE = Ok (Some CASE_DATIVE) /\ pget (wf_form_props f) R_CASE = Ok (Some CASE_GENITIVE) /\ pget (wf_props f) R_GENDER = Ok (Some GENDER_FEMININE) /\
  wf_form ru_unicode f = Ok (u "монеты").
Proof. vm_compute. auto. Qed.
Theorem C19_error : forall U f e, is_wordform f -> (wf_form U f = Err e <->
  e = IndexError /\ holds (wf_form_props f) R_WORD_CASE WORD_CASE_UPPER /\ word_form (wf_word f) (wf_form_props f) = Ok []).
Proof.
  intros U f e Hf. destruct (C19_upper_case U f Hf) as (form & Hform & H1 & H2). destruct (wordform_parts f Hf) as (_ & _ & Hfp & _).
  destruct (upper_dec (wf_form_props f) Hfp) as [Hu|Hu].
  - destruct (H1 Hu) as [G1 G2]. destruct form as [|c rest].
    + rewrite (G1 eq_refl). split; [intros [= <-]; auto|]. intros [-> _]. reflexivity.
    + rewrite (G2 c rest eq_refl). split; [discriminate|]. intros (_ & _ & H). congruence.
  - rewrite (H2 Hu). split; [discriminate|]. intros (_ & H & _). contradiction.
Qed.
Example C19_case :
  wf_form ru_unicode (WordForm coin (Some (Properties [AProp WORD_CASE_UPPER; AProp CASE_DATIVE])) None) = Ok (u "Монете") /\
  wf_form ru_unicode (WordForm gappy (Some (Properties [AProp WORD_CASE_UPPER; AProp CASE_DATIVE])) None) = Err IndexError.
Proof. vm_compute. auto. Qed.

(** ** C54 *)
(** the text of the slot with key k: prefix, identifiers of the non-empty entries joined with commas, suffix *)
Definition test_text (prefix suffix : str) (k : key) : str :=
  prefix ++ join (u ",") (map verbose_id (flat_map (fun o => match o with Some q => [q] | None => [] end) k)) ++ suffix.
Theorem C54_deterministic : forall rnd t prefix suffix only_required p,
  exists w, create_test_word rnd t prefix suffix only_required p = Ok w /\
    w_type w = t /\ w_props w = match p with Some q => q | None => Properties [] end /\
    length (w_forms w) = get_forms_number t /\
    forall i k, slot t i k -> nth_error (w_forms w) i = Some (test_text prefix suffix k).
Proof.
  intros rnd t prefix suffix only_required p.
  assert (E : get_keys t = map Some (INVERTED_WORDS_CACHES t)).
  { apply nth_error_ext. intros i. rewrite (proj2 (C08_forms_number_and_keys t) i), nth_error_map. reflexivity. }
  assert (F : create_test_word rnd t prefix suffix only_required p =
    Word t (map (test_text prefix suffix) (INVERTED_WORDS_CACHES t)) match p with Some q => q | None => Properties [] end).
  { unfold create_test_word. rewrite E, mapM_map.
    rewrite (mapM_ext_in _ (fun k => Ok (test_text prefix suffix k))).
    - rewrite mapM_map_ok. cbn [bind].
      assert (G : forall l, existsb (fun pt => member_of_type_properties t pt && negb (negb (match find (fun e : relation * bool => rel_eqb (fst e) (snd pt)) (type_properties t) with
                                       | Some e => snd e | None => false end) && (only_required || rnd pt))) l = false).
      { induction l as [|a l IH]; [reflexivity|]. simpl. rewrite IH, orb_false_r.
        assert (M : member_of_type_properties t a = false) by (unfold member_of_type_properties; destruct t; reflexivity).
        rewrite M. reflexivity. }
      rewrite G. reflexivity.
    - intros k _. unfold test_text. do 2 f_equal. f_equal. f_equal. induction k as [|[q|] k IH]; simpl; [reflexivity|f_equal; exact IH|exact IH]. }
  rewrite F. unfold Word. rewrite map_length, WORDS_CACHES_length, Nat.eqb_refl. eexists. split; [reflexivity|]. simpl.
  repeat split; [rewrite map_length; unfold get_forms_number; symmetry; apply WORDS_CACHES_length|].
  intros i k Hk. rewrite nth_error_map. unfold slot in Hk. rewrite Hk. reflexivity.
Qed.
(** FINDING: hence required properties of the type are not filled in, whatever only_required and the random
    generator: without explicit properties the word has none *)
Theorem C54_required_properties_ignored : forall rnd t prefix suffix only_required w,
  create_test_word rnd t prefix suffix only_required None = Ok w -> forall g v, ~ holds (w_props w) g v.
Proof.
  intros rnd t prefix suffix only_required w H. destruct (C54_deterministic rnd t prefix suffix only_required None) as (w' & E & _ & Hp & _).
  rewrite H in E. injection E as <-. rewrite Hp. intros g v [].
Qed.
Theorem C54_texts_distinct : forall t prefix suffix i j k k', slot t i k -> slot t j k' ->
  test_text prefix suffix k = test_text prefix suffix k' -> i = j.
Proof.
  intros t prefix suffix i j k k' Hi Hj H. unfold test_text in H. apply app_inv_head in H. apply app_inv_tail in H.
  assert (Hnd : NoDup (map (test_text [] []) (INVERTED_WORDS_CACHES t))).
  { apply (nodup_check_ok _ str_eqb_ok). clear. revert t. apply all_word_types_forallb. vm_compute. reflexivity. }
  apply (nodup_index (map (test_text [] []) (INVERTED_WORDS_CACHES t)) i j (test_text [] [] k) Hnd).
  - rewrite nth_error_map. unfold slot in Hi. rewrite Hi. reflexivity.
  - rewrite nth_error_map. unfold slot in Hj. rewrite Hj. cbn [option_map]. unfold test_text. cbn [app]. rewrite H. reflexivity.
Qed.
Example C54_case : exists w, create_test_word (fun _ => true) WT_NOUN (u "w-") [] false None = Ok w /\
  nth_error (w_forms w) 1 = Some (u "w-нс,ед,рд").
Proof. eexists. split; [vm_compute; reflexivity|vm_compute; reflexivity]. Qed.

(** ** C55 *)
Lemma starts_with_iff p s : starts_with p s = true <-> exists t, s = p ++ t.
Proof.
  revert s. induction p as [|c p IH]; intros s; simpl; [split; [intros _; exists s; reflexivity|reflexivity]|].
  destruct s as [|d s]; [split; [discriminate|intros [t [=]]]|]. rewrite andb_true_iff, N.eqb_eq, IH. split.
  - intros [-> [t ->]]. exists t. reflexivity.
  - intros [t [= -> ->]]. split; [reflexivity|exists t; reflexivity].
Qed.
(** the Russian vowel letters, in both cases *)
Definition vowel_letters : list char := u "аеёиоуыэюяАЕЁИОУЫЭЮЯ".
Definition vowel_sequence (f : str) : str := filter (fun c => if in_dec N.eq_dec c vowel_letters then true else false) f.
Lemma vowel_letters_eq : VOWELS = vowel_letters.
Proof. vm_compute. reflexivity. Qed.
Lemma vowels_of_eq f : vowels_of f = vowel_sequence f.
Proof.
  apply filter_ext. intros c. unfold is_vowel. rewrite vowel_letters_eq.
  destruct (in_dec N.eq_dec c vowel_letters) as [H|H]; [apply (mem_iff _ N_eqb_ok), H|apply (mem_false _ N_eqb_ok), H].
Qed.
(** the number of syllables is the number of vowels of the normal form, and at least one *)
Theorem C55_number_of_syllables : forall w f rest, w_forms w = f :: rest ->
  number_of_syllables w = Ok (Nat.max 1 (length (vowel_sequence f))).
Proof.
  intros w f rest E. unfold number_of_syllables, number_of_syllables_of. rewrite E. cbn [py_nth nth_error bind]. do 2 f_equal.
  rewrite count_set by (apply (nodup_check_ok _ N_eqb_ok); vm_compute; reflexivity).
  rewrite <- vowels_of_eq. unfold vowels_of, is_vowel. reflexivity.
Qed.
(** the word has a fluent vowel iff the sequence of vowels of some given other form does not begin with the sequence of
    vowels of the first form *)
Theorem C55_has_fluent_vowel : forall w f rest, w_forms w = f :: rest ->
  exists b, has_fluent_vowel w = Ok b /\
    (b = true <-> exists g, In g rest /\ g <> [] /\ ~ exists tail, vowel_sequence g = vowel_sequence f ++ tail).
Proof.
  intros w f rest E. unfold has_fluent_vowel, has_fluent_vowel_of. rewrite E. cbn [py_nth nth_error bind tl]. eexists. split; [reflexivity|].
  rewrite existsb_exists. split.
  - intros (g & Hg & H). exists g. split; [exact Hg|]. destruct g as [|c g]; [discriminate|]. split; [discriminate|].
    rewrite negb_true_iff in H. intros [tail Ht]. rewrite !vowels_of_eq, Ht in H.
    assert (T : starts_with (vowel_sequence f) (vowel_sequence f ++ tail) = true) by (apply starts_with_iff; eexists; reflexivity). congruence.
  - intros (g & Hg & Hne & H). exists g. split; [exact Hg|]. destruct g as [|c g]; [congruence|].
    rewrite negb_true_iff. destruct (starts_with _ _) eqn:Es; [|reflexivity]. exfalso. apply H. rewrite <- !vowels_of_eq. apply starts_with_iff, Es.
Qed.
(** for an accepted word both are defined *)
Theorem C55_defined : forall w, is_word w -> exists f rest, w_forms w = f :: rest.
Proof.
  intros w Hw. apply word_forms_length in Hw. destruct (w_forms w) as [|f rest]; [|eauto].
  destruct (INVERTED_WORDS_CACHES (w_type w)) eqn:E; [destruct (INVERTED_nonempty _ E)|discriminate].
Qed.
(** both only look at texts, so a word form of an empty text is harmless here; e.g. лев - льва *)
Definition lion : word := {| w_type := WT_NOUN; w_props := [];
  w_forms := [u "лев"; u "льва"; u "льву"; u "льва"; u "львом"; u "льве"; u "львы"; []; []; []; []; []; []; []; []; []; []; []] |}.
Example C55_case : is_word lion /\ number_of_syllables lion = Ok 1 /\ has_fluent_vowel lion = Ok true /\
  number_of_syllables coin = Ok 3 /\ has_fluent_vowel coin = Ok true.
Proof. split; [apply is_word_iff; split; [apply wf_is_properties, wf_nil|vm_compute; reflexivity]|]. vm_compute. auto. Qed.
