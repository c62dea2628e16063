(** * PropProperties: C01-C06 *)
From Coq Require Import Lia Permutation.
From Verif Require Import PyBase Relations Restrictions Logic Data Words Constructors Dictionary Templates
  SpecProps PyBaseFacts PropsFacts SerFacts SynFacts.

(** ** C01 *)
(** get returns the value given by the last argument that mentions the group ... *)
Theorem C01_last_specification_wins : forall args l1 a l2 g v,
  good_args args ->
  args = l1 ++ a :: l2 -> mentions a g v -> (forall b w, In b l2 -> ~ mentions b g w) ->
  pget (Properties args) g = Ok (Some v).
Proof.
  intros args l1 a l2 g v Hg E Hm Hl. apply good_args_wf in Hg. rewrite pget_spec, dget_Properties by exact Hg.
  rewrite (proj2 (args_get_some g args v Hg)); [reflexivity|]. exists l1, a, l2. auto.
Qed.
(** ... and the default if there is none *)
Theorem C01_default : forall args g,
  good_args args -> (forall a v, In a args -> ~ mentions a g v) ->
  pget (Properties args) g = Ok (default_of g).
Proof.
  intros args g Hg Hn. apply good_args_wf in Hg. rewrite pget_spec, dget_Properties by exact Hg.
  rewrite (proj2 (args_get_none g args Hg) Hn). reflexivity.
Qed.
Theorem C01_is_specified : forall args g,
  good_args args -> (is_specified (Properties args) g = true <-> exists a v, In a args /\ mentions a g v).
Proof.
  intros args g Hg. pose proof (good_args_wf _ Hg) as Hw. rewrite is_specified_iff. split.
  - intros [v Hv]. apply holds_dget in Hv; [|apply wf_Properties, Hw]. rewrite dget_Properties in Hv by exact Hw.
    apply args_get_some in Hv as (l1 & a & l2 & -> & Hm & _); [|exact Hw]. exists a, v. split; [apply in_app_iff; right; left; reflexivity|exact Hm].
  - intros (a & v & Ha & Hm). destruct (args_get g args) as [w|] eqn:E.
    + exists w. apply holds_dget; [apply wf_Properties, Hw|]. rewrite dget_Properties by exact Hw. exact E.
    + exfalso. exact (proj1 (args_get_none g args Hw) E a v Ha Hm).
Qed.
Theorem C01_none_ignored : forall l1 l2, Properties (l1 ++ ANone :: l2) = Properties (l1 ++ l2).
Proof. intros. unfold Properties, update. rewrite !fold_left_app. reflexivity. Qed.
(** clone(p, ...) answers like a fresh object: the last argument, else p itself *)
Theorem C01_clone : forall p args g,
  is_properties p -> good_args args ->
  is_properties (clone p args) /\
  (forall v, holds (clone p args) g v <->
     (exists l1 a l2, args = l1 ++ a :: l2 /\ mentions a g v /\ forall b w, In b l2 -> ~ mentions b g w) \/
     ((forall a w, In a args -> ~ mentions a g w) /\ holds p g v)).
Proof.
  intros p args g Hp Hg.
  assert (Hg' : good_args (AProps p :: args)) by (intros d [[= <-]|H]; [exact Hp|apply Hg, H]).
  split; [apply Properties_ok, Hg'|]. intros v. pose proof (good_args_wf _ Hg') as Hw. pose proof (good_args_wf _ Hg) as Hw1.
  unfold clone. rewrite <- holds_dget by (apply wf_Properties, Hw). rewrite dget_Properties by exact Hw. simpl.
  destruct (args_get g args) as [w|] eqn:E.
  - pose proof (proj1 (args_get_some g args w Hw1) E) as H. split.
    + intros [= <-]. left. exact H.
    + intros [H'|[H' _]].
      * apply (args_get_some g args v Hw1) in H'. congruence.
      * exfalso. destruct H as (l1 & a & l2 & -> & Hm & _). apply (H' a w); [apply in_app_iff; right; left; reflexivity|exact Hm].
  - pose proof (proj1 (args_get_none g args Hw1) E) as H. rewrite holds_dget by (apply is_properties_wf, Hp). split.
    + intros Hv. right. auto.
    + intros [(l1 & a & l2 & -> & Hm & _)|[_ Hv]]; [|exact Hv].
      exfalso. apply (H a v); [apply in_app_iff; right; left; reflexivity|exact Hm].
Qed.
(** the last NUMBER wins, the first CASE is kept, GENDER is the default *)
Example C01_case : let p := Properties [AProp NUMBER_SINGULAR; AProps (Properties [AProp CASE_DATIVE]); ANone; AProp NUMBER_PLURAL] in
  pget p R_NUMBER = Ok (Some NUMBER_PLURAL) /\ pget p R_CASE = Ok (Some CASE_DATIVE) /\
  pget p R_GENDER = Ok (Some GENDER_MASCULINE) /\ is_specified p R_GENDER = false /\ pget p R_WORD_TYPE = Ok None.
Proof. vm_compute. auto. Qed.

(** ** C02 *)
Theorem C02_properties_roundtrip : forall p,
  is_properties p ->
  exists d, serialize_props p = Ok d /\
    forall d', json_trip d d' ->
    exists q, deserialize_props d' = Ok q /\ is_properties q /\ props_eqb q p = true /\ same_props q p.
Proof.
  intros p Hp. destruct (serialize_props_total p Hp) as (d & Hd & _). exists d. split; [exact Hd|].
  intros d' Ht. destruct (props_roundtrip p d' Hp d Hd Ht) as (q & H1 & H2 & H3). exists q.
  repeat split; try assumption; try apply H3. apply props_eqb_same; assumption.
Qed.
(** every entry of the serialized dict has an integer key, so that JSON can turn it into a string *)
Theorem C02_serialized_keys : forall p d k v, is_properties p -> serialize_props p = Ok d -> In (k, v) d -> exists z, k = JInt z.
Proof.
  intros p d k v Hp Hd Hin. destruct (serialize_props_total p Hp) as (d' & Hd' & H). rewrite Hd in Hd'. injection Hd' as <-. exact (H k v Hin).
Qed.
Example C02_case :
  serialize_props (Properties [AProp CASE_DATIVE; AProp NUMBER_PLURAL]) = Ok [(JInt 0, 2%Z); (JInt 2, 1%Z)] /\
  json_trip [(JInt 0, 2%Z); (JInt 2, 1%Z)] [(JStr (u "2"), 1%Z); (JStr (u "0"), 2%Z)] /\
  exists q, deserialize_props [(JStr (u "2"), 1%Z); (JStr (u "0"), 2%Z)] = Ok q /\
            props_eqb q (Properties [AProp CASE_DATIVE; AProp NUMBER_PLURAL]) = true.
Proof.
  split; [vm_compute; reflexivity|]. split.
  - exists [(JInt 2, 1%Z); (JInt 0, 2%Z)]. split; [apply perm_swap|]. repeat (constructor; [split; [right; eexists; split; vm_compute; reflexivity|reflexivity]|]). constructor.
  - eexists. vm_compute. split; reflexivity.
Qed.

(** ** C03 *)
Theorem C03_foreign_data : forall data,
  (forall k v, In (k, v) data -> integer_key k) ->
  exists q, deserialize_props data = Ok q /\ is_properties q /\
    (forall g p, holds q g p <->
       rel_of p = g /\ exists l1 k v l2, data = l1 ++ (k, v) :: l2 /\ known_entry k v p /\
         (forall k' v' p', In (k', v') l2 -> known_entry k' v' p' -> rel_of p' <> g)).
Proof. exact deserialize_foreign. Qed.
Theorem C03_error_iff_non_integer_key : forall data e,
  deserialize_props data = Err e <-> e = ValueError /\ exists k v, In (k, v) data /\ ~ integer_key k.
Proof. exact deserialize_props_error. Qed.
(** group 777 and value 55 are unknown; of the two entries of group 2 the last one counts *)
Example C03_case :
  deserialize_props [(JInt 2, 0%Z); (JStr (u "777"), 1%Z); (JInt 0, 55%Z); (JStr (u "+2"), 1%Z)] = Ok [(R_NUMBER, NUMBER_PLURAL)] /\
  deserialize_props [(JStr (u " 2 "), 1%Z)] = Ok [(R_NUMBER, NUMBER_PLURAL)] /\
  deserialize_props [(JStr [1634%N], 1%Z)] = Ok [(R_NUMBER, NUMBER_PLURAL)] /\
  deserialize_props [(JStr (u "0_0_2"), 1%Z)] = Ok [(R_NUMBER, NUMBER_PLURAL)] /\
  deserialize_props [(JStr (u "0__2"), 1%Z)] = Err ValueError /\ deserialize_props [(JStr (u "x"), 0%Z)] = Err ValueError.
Proof. vm_compute. repeat split. Qed.
(** a key stands for at most one number, and the decimal text of a number for it *)
Theorem C03_key_number_unique : forall k y z, key_number k y -> key_number k z -> y = z.
Proof. intros k y z Hy Hz. apply py_int_iff in Hy, Hz. congruence. Qed.
Theorem C03_decimal_text : forall z, key_number (JStr (str_of_Z z)) z.
Proof. intros z. apply literal_int_text, parse_int_literal, IntFacts.parse_int_str_of_Z. Qed.

(** ** C04 *)
Theorem C04_equality_of_properties : forall p q, is_properties p -> is_properties q -> (props_eqb p q = true <-> same_props p q).
Proof. exact props_eqb_same. Qed.
Theorem C04_equal_properties_agree : forall p q, is_properties p -> is_properties q -> props_eqb p q = true ->
  props_hash p = props_hash q /\ manhattan_distance p = manhattan_distance q /\
  (forall g, pget p g = pget q g) /\ (forall g, is_specified p g = is_specified q g).
Proof.
  intros p q Hp Hq H. assert (Hs := proj1 (props_eqb_same p q Hp Hq) H).
  assert (E := same_props_manhattan p q Hp Hq Hs). split; [exact E|]. split; [exact E|].
  assert (Hd := proj1 (same_props_dget p q (is_properties_wf p Hp) (is_properties_wf q Hq)) Hs).
  split; intros g.
  - rewrite !pget_spec, Hd. reflexivity.
  - unfold is_specified, dmem. rewrite Hd. reflexivity.
Qed.
(** manhattan_distance counts the specified values that are not the default *)
Theorem C04_manhattan_distance : forall p, is_properties p ->
  exists l, NoDup l /\ length l = manhattan_distance p /\
            forall v, In v l <-> holds p (rel_of v) v /\ default_of (rel_of v) <> Some v.
Proof.
  intros p Hp. apply is_properties_wf in Hp. unfold manhattan_distance.
  set (f := fun kv : relation * prop => _). exists (map snd (filter f p)). split; [|split].
  - assert (Hn : NoDup (map rel_of (map snd (filter f p)))).
    { rewrite map_map. replace (map (fun x => rel_of (snd x)) (filter f p)) with (map fst (filter f p)).
      - destruct Hp as [Hn _]. unfold dkeys in Hn. revert Hn. generalize p. clear. intros p Hn. induction p as [|kv p IH]; simpl; [constructor|].
        inversion Hn as [|? ? Hni Hn']; subst. destruct (f kv); simpl; [|apply IH, Hn']. constructor; [|apply IH, Hn'].
        intros H. apply Hni. apply in_map_iff in H as (x & Hx & Hin). apply filter_In in Hin as [Hin _]. apply in_map_iff. exists x. auto.
      - apply map_ext_in. intros [g v] H. apply filter_In in H as [H _]. simpl. symmetry. apply (proj2 Hp), H. }
    apply NoDup_map_inv in Hn. exact Hn.
  - apply map_length.
  - intros v. rewrite in_map_iff. split.
    + intros ([g w] & E & H). simpl in E. subst w. apply filter_In in H as [H Hf]. assert (Hr := proj2 Hp g v H). subst g.
      split; [exact H|]. unfold f in Hf. cbn [fst snd] in Hf. rewrite DEFAULT_PROPERTIES_get in Hf.
      intros E. rewrite E in Hf. rewrite (eqb_ok_refl _ prop_eqb_ok) in Hf. discriminate.
    + intros [H Hd]. exists (rel_of v, v). split; [reflexivity|]. apply filter_In. split; [exact H|]. unfold f. cbn [fst snd].
      rewrite DEFAULT_PROPERTIES_get. destruct (default_of (rel_of v)) as [w|]; [|reflexivity].
      destruct (prop_eqb v w) eqn:E; [|reflexivity]. apply prop_eqb_ok in E. congruence.
Qed.
Theorem C04_properties_equivalence :
  (forall p, is_properties p -> props_eqb p p = true) /\
  (forall p q, is_properties p -> is_properties q -> props_eqb p q = true -> props_eqb q p = true) /\
  (forall p q r, is_properties p -> is_properties q -> is_properties r ->
     props_eqb p q = true -> props_eqb q r = true -> props_eqb p r = true).
Proof.
  split; [exact props_eqb_refl|]. split.
  - intros p q Hp Hq. rewrite !props_eqb_same by assumption. unfold same_props. intros H g v. symmetry. apply H.
  - intros p q r Hp Hq Hr. rewrite !props_eqb_same by assumption. unfold same_props. intros H1 H2 g v. rewrite H1. apply H2.
Qed.
Theorem C04_equality_of_words : forall a b, is_word a -> is_word b ->
  (word_eqb a b = true <-> w_type a = w_type b /\ w_forms a = w_forms b /\ same_props (w_props a) (w_props b)).
Proof. exact word_eqb_iff. Qed.
Theorem C04_equal_words_have_equal_hash : forall a b, is_word a -> is_word b -> word_eqb a b = true -> word_hash a = word_hash b.
Proof.
  intros a b Ha Hb H. apply word_eqb_iff in H as (H1 & _ & H2); [|assumption|assumption]. unfold word_hash, props_hash.
  rewrite H1, (same_props_manhattan _ _ (proj1 Ha) (proj1 Hb) H2). reflexivity.
Qed.
(** two objects built in different orders *)
Example C04_case : let p := Properties [AProp NUMBER_PLURAL; AProp CASE_DATIVE] in
  let q := Properties [AProp CASE_DATIVE; AProp NUMBER_SINGULAR; AProp NUMBER_PLURAL] in
  p <> q /\ props_eqb p q = true /\ props_hash p = 2 /\ props_hash q = 2.
Proof. vm_compute. repeat split; try reflexivity. discriminate. Qed.

(** ** C05 *)
Lemma wordform_words f : is_wordform f -> is_word (wf_word f) /\ is_properties (wf_props f) /\ is_properties (wf_form_props f).
Proof.
  intros (w & p & fp & Hw & Hp & Hfp & ->). split; [exact Hw|].
  assert (G : forall q, is_properties q -> is_properties (Properties [AProps q; AProps (w_props w)])).
  { intros q Hq. apply Properties_ok. intros d [[= <-]|[[= <-]|[]]]; [exact Hq|apply Hw]. }
  simpl. split.
  - destruct p as [q|]; [apply G, Hp; reflexivity|apply Hw].
  - destruct fp as [q|]; [apply G, Hfp; reflexivity|]. destruct p as [q|]; [apply G, Hp; reflexivity|apply Hw].
Qed.
Theorem C05_equality_of_wordforms : forall a b, is_wordform a -> is_wordform b ->
  (wordform_eqb a b = true <-> word_eqb (wf_word a) (wf_word b) = true /\ same_props (wf_props a) (wf_props b)).
Proof.
  intros a b Ha Hb. apply wordform_words in Ha as (_ & Ha & _), Hb as (_ & Hb & _).
  unfold wordform_eqb. rewrite andb_true_iff, props_eqb_same by assumption. tauto.
Qed.
Theorem C05_equivalence :
  (forall a, is_wordform a -> wordform_eqb a a = true) /\
  (forall a b, is_wordform a -> is_wordform b -> wordform_eqb a b = true -> wordform_eqb b a = true) /\
  (forall a b c, is_wordform a -> is_wordform b -> is_wordform c ->
     wordform_eqb a b = true -> wordform_eqb b c = true -> wordform_eqb a c = true).
Proof.
  repeat split.
  - intros a Ha. rewrite C05_equality_of_wordforms by assumption. apply wordform_words in Ha as (Ha & _ & _).
    rewrite word_eqb_iff by assumption. unfold same_props. repeat split; auto.
  - intros a b Ha Hb. rewrite !C05_equality_of_wordforms by assumption.
    apply wordform_words in Ha as (Ha & _ & _), Hb as (Hb & _ & _). rewrite !word_eqb_iff by assumption.
    unfold same_props. intros [(H1 & H2 & H3) H4]. repeat split; try congruence; intros; try (apply H3; assumption); try (apply H4; assumption).
  - intros a b c Ha Hb Hc. rewrite !C05_equality_of_wordforms by assumption.
    apply wordform_words in Ha as (Ha & _ & _), Hb as (Hb & _ & _), Hc as (Hc & _ & _). rewrite !word_eqb_iff by assumption.
    unfold same_props. intros [(H1 & H2 & H3) H4] [(H1' & H2' & H3') H4']. repeat split; try congruence; intros.
    + apply H3', H3. assumption.
    + apply H3, H3'. assumption.
    + apply H4', H4. assumption.
    + apply H4, H4'. assumption.
Qed.
Theorem C05_equal_hash_without_form_properties : forall w1 p1 w2 p2,
  is_wordform (WordForm w1 p1 None) -> is_wordform (WordForm w2 p2 None) ->
  wordform_eqb (WordForm w1 p1 None) (WordForm w2 p2 None) = true ->
  wordform_hash (WordForm w1 p1 None) = wordform_hash (WordForm w2 p2 None).
Proof.
  intros w1 p1 w2 p2 Ha Hb H. apply C05_equality_of_wordforms in H as [H1 H2]; [|assumption|assumption].
  apply wordform_words in Ha as (Ha & Hpa & _), Hb as (Hb & Hpb & _). unfold wordform_hash. f_equal.
  - apply C04_equal_words_have_equal_hash; assumption.
  - exact (same_props_manhattan _ _ Hpa Hpb H2).
Qed.
(** FINDING: with explicit form_properties equal word forms can have different hash inputs *)
Theorem C05_hash_contract_refuted : exists a b,
  is_wordform a /\ is_wordform b /\ wordform_eqb a b = true /\ wordform_hash a <> wordform_hash b.
Proof.
  set (w := {| w_type := WT_TEXT; w_forms := [u "x"]; w_props := Properties [] |}).
  assert (Hw : is_word w).
  { split; [apply Properties_ok; intros d []|vm_compute; reflexivity]. }
  set (q := Properties [AProp NUMBER_PLURAL]).
  assert (Hq : is_properties q) by (apply Properties_ok; intros d [[=]|[]]).
  exists (WordForm w None None), (WordForm w None (Some q)). split; [|split; [|split]].
  - exists w, None, None. split; [exact Hw|]. split; [discriminate|]. split; [discriminate|reflexivity].
  - exists w, None, (Some q). split; [exact Hw|]. split; [discriminate|]. split; [intros ? [= <-]; exact Hq|reflexivity].
  - vm_compute. reflexivity.
  - vm_compute. discriminate.
Qed.
Example C05_case : exists w, is_word w /\
  let a := WordForm w (Some (Properties [AProp CASE_DATIVE; AProp NUMBER_PLURAL])) None in
  let b := WordForm w (Some (Properties [AProp NUMBER_PLURAL; AProp CASE_DATIVE])) None in
  wf_props a <> wf_props b /\ wordform_eqb a b = true /\ wordform_hash a = wordform_hash b.
Proof.
  exists {| w_type := WT_TEXT; w_forms := [u "x"]; w_props := Properties [] |}. split.
  - split; [apply Properties_ok; intros d []|vm_compute; reflexivity].
  - vm_compute. repeat split; try reflexivity. discriminate.
Qed.

(** ** C06 *)
Theorem C06_identifiers_distinct : forall p q, verbose_id p = verbose_id q -> p = q.
Proof. exact verbose_id_inj. Qed.
Theorem C06_identifiers_without_delimiters : forall U p c, unicode_ok U -> In c (verbose_id p) -> id_char c = true /\ ~ delimiter U c.
Proof.
  intros U p c [_ HU] H. assert (G := verbose_id_chars p). rewrite Forall_forall in G. apply G in H. split; [exact H|].
  intros [Hd|Hd].
  - vm_compute in Hd. repeat (destruct Hd as [<-|Hd]; [discriminate|]). destruct Hd.
  - rewrite (HU c (or_introl H)) in Hd. discriminate.
Qed.
(** the identifiers of the values of p, in any order, are read back to p *)
Theorem C06_identifiers_roundtrip : forall p values,
  is_properties p -> Permutation (map snd p) values ->
  exists q, parse_properties (join (u ",") (map verbose_id values)) = Ok q /\ is_properties q /\ same_props q p.
Proof. exact parse_permuted. Qed.
(** the same through a whole variable [a|ids] *)
Theorem C06_variable_roundtrip : forall U externals a p values,
  unicode_ok U -> is_properties p -> Permutation (map snd p) values ->
  ~ In BAR a -> (exists c, In c a /\ u_isspace U c = false) ->
  ~ In (join (u ",") (map verbose_id values)) (dkeys externals) ->
  exists s q rest,
    parse_substitution U (u "[" ++ a ++ u "|" ++ join (u ",") (map verbose_id values) ++ u "]") externals = Ok s /\
    s_deps s = DProps q :: rest /\ is_properties q /\ same_props q p.
Proof.
  intros U ext a p values HU Hp HP Hb Hc He.
  destruct (parse_variable_ids U ext a p values HU Hp HP Hb Hc He) as (s & q & rest & H1 & _ & H2 & H3 & H4).
  exists s, q, rest. split; [|auto]. rewrite <- H1. f_equal. change (u "[") with [LBR]. change (u "|") with [BAR]. change (u "]") with [RBR].
  simpl. rewrite <- !app_assoc. reflexivity.
Qed.
Theorem C06_unicode_ok_inhabited : unicode_ok ru_unicode.
Proof. exact ru_unicode_ok. Qed.
Example C06_case : let p := Properties [AProp NUMBER_PLURAL; AProp CASE_DATIVE] in
  Permutation (map snd p) [CASE_DATIVE; NUMBER_PLURAL] /\
  join (u ",") (map verbose_id [CASE_DATIVE; NUMBER_PLURAL]) = u "дт,мн" /\
  parse_properties (u "дт,мн") = Ok (Properties [AProp CASE_DATIVE; AProp NUMBER_PLURAL]).
Proof. repeat split; try (vm_compute; reflexivity). apply perm_swap. Qed.
