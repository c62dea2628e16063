(** * PropMigrations: the migrations of serialized words (C50-C53, C56, C57) *)
From Coq Require Import Permutation Lia.
From Verif Require Import PyBase PyBaseFacts Relations Restrictions Logic Data Words SpecProps PropsFacts SpecSlots SlotFacts NearestFacts LookupFacts WordFacts
  SerFacts PropSlots MigrationTables Migrations SpecMigrations MigrationFacts.

(** ** C50 *)
Theorem C50_migrate : forall old new d d', NoDup (dkeys old) -> numbering new ->
  migrate_forms (nearest_old_index old) new d = Ok d' ->
  same_but_forms d d' /\ length (md_forms d') = length new /\
  forall k i, In (k, i) new -> exists ko j f, In (ko, j) old /\ get_nearest_key k (dkeys old) = Some ko /\
    nth_error (md_forms d) j = Some f /\ nth_error (md_forms d') i = Some f /\
    (length k <= 20 -> forall k2 j2, In (k2, j2) old -> at_least_as_similar k ko k2).
Proof.
  intros old new d d' Ho Hn H. apply migrate_ok in H as (S & L & C); [|exact Hn]. split; [exact S|]. split; [exact L|].
  intros k i Hin. destruct (C k i Hin) as (j & f & H1 & H2 & H3). destruct (nearest_index_spec old k) as [[_ E]|(ko & j' & E1 & E2 & E3 & E4)]; [congruence|].
  rewrite E4 in H1. injection H1 as <-. exists ko, j', f. repeat split; auto.
  intros Hk k2 j2 H4. apply (C14_nearest_is_maximal k (dkeys old)); [exact Hk|exact E1|]. apply in_map_iff. exists (k2, j2). auto.
Qed.
Theorem C50_same_key : forall old new d d' k i j, NoDup (dkeys old) -> uniform old -> numbering new ->
  migrate_forms (nearest_old_index old) new d = Ok d' -> In (k, i) new -> In (k, j) old ->
  exists f, nth_error (md_forms d) j = Some f /\ nth_error (md_forms d') i = Some f.
Proof.
  intros old new d d' k i j Ho Hu Hn H Hi Hj. apply migrate_ok in H as (_ & _ & C); [|exact Hn]. destruct (C k i Hi) as (j' & f & H1 & H2 & H3).
  rewrite (nearest_index_self old k j Hu Ho Hj) in H1. injection H1 as <-. eauto.
Qed.
Theorem C50_succeeds : forall old new d, old <> [] -> numbering new -> fits old (md_forms d) ->
  exists d', migrate_forms (nearest_old_index old) new d = Ok d'.
Proof.
  intros old new d Ho Hn Hf. apply migrate_total; [exact Hn|]. intros k i _. destruct (nearest_index_spec old k) as [[E _]|(ko & j & _ & _ & E3 & E4)]; [contradiction|].
  exists j. split; [exact E4|apply (Hf _ _ E3)].
Qed.
Theorem C50_errors : forall old new d e, numbering new -> migrate_forms (nearest_old_index old) new d = Err e ->
  (e = KeyError /\ old = []) \/ (e = IndexError /\ exists k j, In (k, j) old /\ length (md_forms d) <= j).
Proof.
  intros old new d e Hn H. apply migrate_err in H as (k & i & _ & H); [|exact Hn].
  destruct (nearest_index_spec old k) as [[E1 E2]|(ko & j & _ & _ & E3 & E4)].
  - left. destruct H as [H|(j & H & _)]; [|congruence]. split; congruence.
  - right. destruct H as [H|(j' & H & H1 & H2)]; [congruence|]. split; [exact H2|]. exists ko, j. split; [exact E3|]. rewrite E4 in H. injection H as <-. exact H1.
Qed.
(** the shipped tables meet the hypotheses *)
Theorem C50_shipped_tables : forall t,
  Forall (fun tables => NoDup (dkeys (fst tables)) /\ uniform (fst tables) /\ fst tables <> [] /\ numbering (snd tables))
    [(m7_OLD_CACHES t, m7_NEW_CACHES t); (m8_OLD_CACHES t, m8_NEW_CACHES t); (m9_OLD_CACHES t, m9_NEW_CACHES t)].
Proof.
  intros t. destruct (m7_old t) as (A1 & A2 & A3), (m8_old t) as (B1 & B2 & B3), (m9_old t) as (C1 & C2 & C3).
  repeat constructor; simpl; auto; try apply (m7_new t); try apply (m8_new t); apply (m9_new t).
Qed.

(** ** C51 *)
Lemma accepted d t : wt_call (md_type d) = Some t -> length (md_forms d) = length (WORDS_CACHES t) -> integer_properties d ->
  exists w, deserialize_word (as_word_data d) = Ok w /\ is_word w /\ w_type w = t /\ w_forms w = md_forms d.
Proof.
  intros Ht Hl Hp. unfold deserialize_word, as_word_data. simpl. rewrite Ht.
  destruct (deserialize_foreign (map (fun kv => (JStr (fst kv), snd kv)) (md_props d))) as (q & Hq & Hok & _).
  { intros k v Hin. apply in_map_iff in Hin as ([s v'] & [= <- <-] & Hin). destruct (Hp s v' Hin) as [z Hz]. exists z. exact Hz. }
  rewrite Hq. simpl. unfold Word. rewrite Hl, Nat.eqb_refl. eexists. split; [reflexivity|]. split; [|auto].
  split; [exact Hok|]. simpl. unfold Word. rewrite Hl, Nat.eqb_refl. reflexivity.
Qed.
Theorem C51_tables_are_current : forall t, m9_NEW_CACHES t = WORDS_CACHES t.
Proof. exact m9_NEW_is_current. Qed.
Theorem C51_accepted : forall d t, wt_call (md_type d) = Some t -> fits (m9_OLD_CACHES t) (md_forms d) ->
  exists d', m9_migrate d = Ok d' /\ same_but_forms d d' /\
    (integer_properties d -> exists w, deserialize_word (as_word_data d') = Ok w /\ is_word w /\ w_type w = t /\ w_forms w = md_forms d').
Proof.
  intros d t Ht Hf. unfold m9_migrate. rewrite Ht. destruct (C50_succeeds (m9_OLD_CACHES t) (m9_NEW_CACHES t) d) as [d' Hd'];
    [apply m9_old|apply m9_new|exact Hf|]. exists d'. split; [exact Hd'|].
  destruct (C50_migrate _ _ _ _ (proj1 (m9_old t)) (m9_new t) Hd') as (S & L & _). split; [exact S|]. destruct S as (S1 & S2 & S3).
  intros Hp. apply accepted; [congruence|rewrite L, m9_NEW_is_current; reflexivity|]. unfold integer_properties. rewrite S2. exact Hp.
Qed.
Theorem C51_identity : forall d t, wt_call (md_type d) = Some t -> t <> WT_PRONOUN -> length (md_forms d) = length (WORDS_CACHES t) ->
  m9_migrate d = Ok d.
Proof.
  intros d t Ht Hp Hl. unfold m9_migrate. rewrite Ht. assert (Ho := m9_self_fit t Hp). assert (Hn := m9_new t). rewrite m9_NEW_is_current in *.
  assert (Hu := m9_old t). rewrite Ho in *. destruct Hu as (U1 & U2 & U3).
  destruct (C50_succeeds (WORDS_CACHES t) (WORDS_CACHES t) d) as [d' Hd'].
  - exact U3.
  - exact Hn.
  - intros k j Hin. rewrite Hl. exact (numbering_lt _ _ _ Hn Hin).
  - rewrite Hd'. f_equal. destruct (C50_migrate _ _ _ _ U1 Hn Hd') as ((S1 & S2 & S3) & L & _).
    assert (E : md_forms d' = md_forms d).
    { apply nth_error_ext. intros i. destruct (Nat.lt_ge_cases i (length (WORDS_CACHES t))) as [Hi|Hi].
      - destruct (numbering_has _ i Hn Hi) as [k Hk]. destruct (C50_same_key _ _ _ _ k i i U1 U2 Hn Hd' Hk Hk) as (f & F1 & F2). congruence.
      - rewrite !(proj2 (nth_error_None _ _)) by lia. reflexivity. }
    destruct d, d'; simpl in *; congruence.
Qed.
(** unknown types are refused *)
Theorem C51_unknown_type : forall d, wt_call (md_type d) = None -> m9_migrate d = Err NotExternalValueError.
Proof. intros d H. unfold m9_migrate. rewrite H. reflexivity. Qed.
(** a pronoun keeps its third person forms: both animalities get the form of (number, case, 3rd person, gender) *)
Definition m9_pronoun_check : bool :=
  forallb (fun kv => match nearest_old_index (m9_OLD_CACHES WT_PRONOUN) (fst kv), dget key_eqb (third_person (fst kv)) (m8_NEW_CACHES WT_PRONOUN) with
                     | Ok j, Some j' => Nat.eqb j j' | _, _ => false end) (m9_NEW_CACHES WT_PRONOUN).
Lemma m9_pronoun_check_ok : m9_pronoun_check = true.
Proof. vm_compute. reflexivity. Qed.
Lemma m9_pronoun_source k i : In (k, i) (m9_NEW_CACHES WT_PRONOUN) -> exists j, nearest_old_index (m9_OLD_CACHES WT_PRONOUN) k = Ok j /\
  dget key_eqb (third_person k) (m8_NEW_CACHES WT_PRONOUN) = Some j.
Proof.
  intros H. assert (G := m9_pronoun_check_ok). unfold m9_pronoun_check in G. rewrite forallb_forall in G. specialize (G _ H). cbn [fst] in G.
  destruct (nearest_old_index (m9_OLD_CACHES WT_PRONOUN) k) as [j|]; [|discriminate].
  destruct (dget key_eqb (third_person k) (m8_NEW_CACHES WT_PRONOUN)) as [j'|]; [|discriminate]. apply Nat.eqb_eq in G. subst. eauto.
Qed.
Theorem C51_pronoun_third_person : forall d d' i k,
  wt_call (md_type d) = Some WT_PRONOUN -> m9_migrate d = Ok d' -> slot WT_PRONOUN i k ->
  exists j f, In (third_person k, j) (m8_NEW_CACHES WT_PRONOUN) /\ nth_error (md_forms d) j = Some f /\ nth_error (md_forms d') i = Some f.
Proof.
  intros d d' i k Ht H Hs. unfold m9_migrate in H. rewrite Ht in H. apply migrate_ok in H as (_ & _ & C); [|apply m9_new].
  assert (Hin : In (k, i) (m9_NEW_CACHES WT_PRONOUN)).
  { rewrite m9_NEW_is_current. apply (dget_In _ key_eqb_ok), WORDS_CACHES_dget, Hs. }
  destruct (C k i Hin) as (j0 & f & C1 & C2 & C3). destruct (m9_pronoun_source k i Hin) as (j1 & E1 & E2).
  apply (dget_In _ key_eqb_ok) in E2. rewrite E1 in C1. injection C1 as ->. eauto.
Qed.

(** ** C52 *)
Theorem C52_not_importable : import_module m3_attributes = Err AttributeError /\ import_module m6_attributes = Err AttributeError.
Proof. split; [vm_compute; reflexivity|vm_compute; reflexivity]. Qed.
Theorem C52_importable : forall attributes, In attributes [m1_attributes; m7_attributes; m8_attributes; m9_attributes] -> import_module attributes = Ok tt.
Proof. intros a [<-|[<-|[<-|[<-|[]]]]]; vm_compute; reflexivity. Qed.

(** m_0001 *)
Lemma m1_fold_spec k l : forall pre best,
  (pre = [] /\ best = (None, (-1)%Z) \/
   exists kb jb, In (kb, jb) pre /\ best = (Some jb, Z.of_nat (count_equal kb k))) ->
  l ++ pre = [] /\ fst (fold_left (m1_nearest_step k) l best) = None \/
  exists kb jb, In (kb, jb) (l ++ pre) /\ fst (fold_left (m1_nearest_step k) l best) = Some jb.
Proof.
  induction l as [|[k1 j1] l IH]; intros pre best H; simpl.
  - destruct H as [[-> ->]|(kb & jb & H & ->)]; [left; auto|right; exists kb, jb; auto].
  - right. destruct (IH ((k1, j1) :: pre) (m1_nearest_step k best (k1, j1))) as [[E _]|(kb & jb & G1 & G2)].
    + right. destruct H as [[-> ->]|(kb & jb & H & ->)]; unfold m1_nearest_step; cbn [fst snd].
      * exists k1, j1. split; [left; reflexivity|]. assert (G : Z.gtb (Z.of_nat (count_equal k1 k)) (-1) = true) by (apply Z.gtb_lt; lia). rewrite G. reflexivity.
      * destruct (Z.gtb _ _); [exists k1, j1; split; [left; reflexivity|reflexivity]|exists kb, jb; split; [right; exact H|reflexivity]].
    + apply app_eq_nil in E as [_ E]. discriminate.
    + exists kb, jb. split; [|exact G2]. apply in_app_or in G1 as [G1|[G1|G1]]; [right; apply in_or_app; auto|left; exact G1|right; apply in_or_app; auto].
Qed.
Lemma m1_nearest_total old k : old <> [] -> exists kb j, In (kb, j) old /\ m1_nearest_old_index old k = Ok j.
Proof.
  intros H. unfold m1_nearest_old_index. destruct (m1_fold_spec (tl k) old [] (None, (-1)%Z) (or_introl (conj eq_refl eq_refl))) as [[E _]|(kb & j & G1 & ->)].
  - rewrite app_nil_r in E. contradiction.
  - rewrite app_nil_r in G1. eauto.
Qed.
Lemma wt_call_1 z : wt_call z = Some WT_ADJECTIVE -> z = 1%Z.
Proof. intros H. apply wt_call_iff in H. rewrite <- H. reflexivity. Qed.
Lemma wt_call_4 z : wt_call z = Some WT_PARTICIPLE -> z = 4%Z.
Proof. intros H. apply wt_call_iff in H. rewrite <- H. reflexivity. Qed.
Lemma m1_other d : md_type d <> 1%Z -> md_type d <> 4%Z -> m1_migrate d = Ok d.
Proof.
  intros H1 H4. unfold m1_migrate. apply Z.eqb_neq in H1, H4. rewrite H1. simpl. rewrite H4. reflexivity.
Qed.
Lemma m1_adjective d : md_type d = 1%Z -> m1_migrate d = migrate_forms (m1_nearest_old_index m1_OLD_ADJECTIVE_CACHE) (WORDS_CACHES WT_ADJECTIVE) d.
Proof.
  intros H. unfold m1_migrate. rewrite H. change (Z.eqb 1 1) with true. cbv iota.
  destruct (migrate_forms (m1_nearest_old_index m1_OLD_ADJECTIVE_CACHE) (WORDS_CACHES WT_ADJECTIVE) d) as [d1|e] eqn:E; [|reflexivity].
  apply migrate_ok in E as ((S & _) & _); [|apply current_new]. simpl. rewrite S, H. reflexivity.
Qed.
Lemma m1_participle d : md_type d = 4%Z -> m1_migrate d = migrate_forms (m1_nearest_old_index m1_OLD_PARTICIPLE_CACHE) (WORDS_CACHES WT_PARTICIPLE) d.
Proof. intros H. unfold m1_migrate. rewrite H. change (Z.eqb 4 1) with false. simpl. rewrite H. reflexivity. Qed.
Lemma m1_succeeds old new d : old <> [] -> numbering new -> fits old (md_forms d) -> exists d', migrate_forms (m1_nearest_old_index old) new d = Ok d'.
Proof.
  intros Ho Hn Hf. apply migrate_total; [exact Hn|]. intros k i _. destruct (m1_nearest_total old k Ho) as (kb & j & H1 & H2). exists j. split; [exact H2|exact (Hf _ _ H1)].
Qed.
(** data with too few forms for a key that the tables share is refused *)
Theorem C50_too_few_forms : forall old new d k i j, NoDup (dkeys old) -> uniform old -> numbering new ->
  In (k, i) new -> In (k, j) old -> length (md_forms d) <= j -> migrate_forms (nearest_old_index old) new d = Err IndexError.
Proof.
  intros old new d k i j Ho Hu Hn Hi Hj Hl. destruct (migrate_forms (nearest_old_index old) new d) as [d'|e] eqn:E.
  - exfalso. destruct (C50_same_key _ _ _ _ k i j Ho Hu Hn E Hi Hj) as (f & F & _). apply nth_error_None in Hl. congruence.
  - apply C50_errors in E as [[_ ->]|[-> _]]; [destruct Hj|reflexivity|exact Hn].
Qed.
Definition big_key (t : word_type) (n : nat) : bool :=
  existsb (fun kv => match dget key_eqb (fst kv) (m7_OLD_CACHES t) with Some j => Nat.leb n j | None => false end) (m7_NEW_CACHES t).
Lemma m7_too_few t d n : wt_call (md_type d) = Some t -> length (md_forms d) = n -> big_key t n = true -> m7_migrate d = Err IndexError.
Proof.
  intros Ht Hl H. unfold big_key in H. apply existsb_exists in H as ([k i] & H1 & H2). cbn [fst] in H2.
  destruct (dget key_eqb k (m7_OLD_CACHES t)) as [j|] eqn:E; [|discriminate]. apply Nat.leb_le in H2. apply (dget_In _ key_eqb_ok) in E.
  unfold m7_migrate. rewrite Ht. destruct (m7_old t) as (U1 & U2 & _). apply (C50_too_few_forms _ _ d k i j); auto; [apply m7_new|lia].
Qed.
Theorem C52_m1_keeps_other_types : forall d, md_type d <> 1%Z -> md_type d <> 4%Z -> m1_migrate d = Ok d.
Proof. exact m1_other. Qed.
Theorem C52_m1_output_has_current_size : forall d t old,
  In (t, old) [(WT_ADJECTIVE, m1_OLD_ADJECTIVE_CACHE); (WT_PARTICIPLE, m1_OLD_PARTICIPLE_CACHE)] ->
  wt_call (md_type d) = Some t -> fits old (md_forms d) ->
  exists d', m1_migrate d = Ok d' /\ same_but_forms d d' /\ length (md_forms d') = length (WORDS_CACHES t) /\ m7_migrate d' = Err IndexError.
Proof.
  intros d t old Ho Ht Hf. assert (Hold : old <> []) by (destruct Ho as [[= <- <-]|[[= <- <-]|[]]]; intros E; apply (f_equal (@length _)) in E; vm_compute in E; discriminate).
  destruct (m1_succeeds old (WORDS_CACHES t) d Hold (current_new t) Hf) as [d' Hd']. exists d'.
  assert (Hm : m1_migrate d = Ok d').
  { destruct Ho as [[= <- <-]|[[= <- <-]|[]]]; [rewrite m1_adjective by (apply wt_call_1, Ht)|rewrite m1_participle by (apply wt_call_4, Ht)]; exact Hd'. }
  split; [exact Hm|]. apply migrate_ok in Hd' as (S & L & _); [|apply current_new]. split; [exact S|]. split; [exact L|].
  destruct S as (S1 & _). apply (m7_too_few t d' (length (WORDS_CACHES t))); [congruence|exact L|].
  destruct Ho as [[= <- <-]|[[= <- <-]|[]]]; vm_compute; reflexivity.
Qed.

(** m_0007 - m_0009 chain *)
Lemma m7_m8_m9 d t : wt_call (md_type d) = Some t -> fits (m7_OLD_CACHES t) (md_forms d) ->
  exists d7 d8 d9, m7_migrate d = Ok d7 /\ m8_migrate d7 = Ok d8 /\ m9_migrate d8 = Ok d9 /\
    wt_call (md_type d7) = Some t /\ wt_call (md_type d8) = Some t /\ same_but_forms d d9 /\ length (md_forms d9) = length (WORDS_CACHES t).
Proof.
  intros Ht Hf.
  destruct (C50_succeeds (m7_OLD_CACHES t) (m7_NEW_CACHES t) d (proj2 (proj2 (m7_old t))) (m7_new t) Hf) as [d7 H7].
  destruct (migrate_ok _ _ _ _ (m7_new t) H7) as ((T7 & P7 & Q7) & L7 & _).
  destruct (C50_succeeds (m8_OLD_CACHES t) (m8_NEW_CACHES t) d7 (proj2 (proj2 (m8_old t))) (m8_new t)) as [d8 H8].
  { apply fits_check_ok. rewrite L7. apply m7_m8_fit. }
  destruct (migrate_ok _ _ _ _ (m8_new t) H8) as ((T8 & P8 & Q8) & L8 & _).
  destruct (C50_succeeds (m9_OLD_CACHES t) (m9_NEW_CACHES t) d8 (proj2 (proj2 (m9_old t))) (m9_new t)) as [d9 H9].
  { apply fits_check_ok. rewrite L8. apply m8_m9_fit. }
  destruct (migrate_ok _ _ _ _ (m9_new t) H9) as ((T9 & P9 & Q9) & L9 & _).
  assert (W7 : wt_call (md_type d7) = Some t) by congruence. assert (W8 : wt_call (md_type d8) = Some t) by congruence.
  exists d7, d8, d9. unfold m7_migrate, m8_migrate, m9_migrate. rewrite Ht, W7, W8.
  split; [exact H7|]. split; [exact H8|]. split; [exact H9|]. split; [reflexivity|]. split; [reflexivity|]. split; [repeat split; congruence|].
  rewrite L9, m9_NEW_is_current. reflexivity.
Qed.
Definition m7_to_m9 (d : mdata) : result mdata := d7 <- m7_migrate d ;; d8 <- m8_migrate d7 ;; m9_migrate d8.
Theorem C52_chain : forall d t, wt_call (md_type d) = Some t -> fits (m7_OLD_CACHES t) (md_forms d) ->
  exists d', m7_to_m9 d = Ok d' /\ same_but_forms d d' /\
    (integer_properties d -> exists w, deserialize_word (as_word_data d') = Ok w /\ is_word w /\ w_type w = t /\ w_forms w = md_forms d').
Proof.
  intros d t Ht Hf. destruct (m7_m8_m9 d t Ht Hf) as (d7 & d8 & d9 & H7 & H8 & H9 & _ & _ & S & L). exists d9.
  unfold m7_to_m9. rewrite H7. simpl. rewrite H8. simpl. split; [exact H9|]. split; [exact S|]. destruct S as (S1 & S2 & S3).
  intros Hp. apply accepted; [congruence|exact L|]. unfold integer_properties. rewrite S2. exact Hp.
Qed.

(** what the chain keeps: the sources of the current slots *)
Definition is_some_nat (o : option nat) (i : nat) : bool := match o with Some j => Nat.eqb i j | None => false end.
Definition middle (t : word_type) (k : key) : key := if wt_eqb t WT_PRONOUN then third_person k else k.
Definition chain_row (t : word_type) (kv : key * nat) : bool :=
  match (if wt_eqb t WT_PRONOUN then match nearest_old_index (m9_OLD_CACHES t) (fst kv) with Ok j => Some j | Err _ => None end
         else dget key_eqb (fst kv) (m9_OLD_CACHES t)),
        dget key_eqb (middle t (fst kv)) (m8_NEW_CACHES t), dget key_eqb (middle t (fst kv)) (m8_OLD_CACHES t),
        dget key_eqb (before_m8 (middle t (fst kv))) (m7_NEW_CACHES t) with
  | Some a, Some b, Some c, Some d => Nat.eqb a b && Nat.eqb c d
  | _, _, _, _ => false
  end.
Lemma chain_rows t : forallb (chain_row t) (m9_NEW_CACHES t) = true.
Proof. revert t. apply all_word_types_forallb. vm_compute. reflexivity. Qed.
Lemma chain_source t k i : In (k, i) (m9_NEW_CACHES t) -> exists a c,
  nearest_old_index (m9_OLD_CACHES t) k = Ok a /\ In (middle t k, a) (m8_NEW_CACHES t) /\ In (middle t k, c) (m8_OLD_CACHES t) /\ In (before_m8 (middle t k), c) (m7_NEW_CACHES t).
Proof.
  intros H. assert (G := chain_rows t). rewrite forallb_forall in G. specialize (G _ H). unfold chain_row in G. cbn [fst] in G.
  destruct (if wt_eqb t WT_PRONOUN then _ else _) as [a|] eqn:Ea; [|discriminate].
  destruct (dget key_eqb (middle t k) (m8_NEW_CACHES t)) as [b|] eqn:Eb; [|discriminate].
  destruct (dget key_eqb (middle t k) (m8_OLD_CACHES t)) as [c|] eqn:Ec; [|discriminate].
  destruct (dget key_eqb (before_m8 (middle t k)) (m7_NEW_CACHES t)) as [e|] eqn:Ee; [|discriminate].
  apply andb_prop in G as [G1 G2]. apply Nat.eqb_eq in G1, G2. subst b e.
  apply (dget_In _ key_eqb_ok) in Eb, Ec, Ee. exists a, c. split; [|auto].
  destruct (wt_eqb t WT_PRONOUN).
  - destruct (nearest_old_index (m9_OLD_CACHES t) k); congruence.
  - apply (dget_In _ key_eqb_ok) in Ea. destruct (m9_old t) as (U1 & U2 & _). apply nearest_index_self; assumption.
Qed.
Lemma chain_form d d7 d8 d9 t i k : wt_call (md_type d) = Some t -> wt_call (md_type d7) = Some t -> wt_call (md_type d8) = Some t ->
  m7_migrate d = Ok d7 -> m8_migrate d7 = Ok d8 -> m9_migrate d8 = Ok d9 -> slot t i k ->
  exists c f, In (before_m8 (middle t k), c) (m7_NEW_CACHES t) /\ nth_error (md_forms d7) c = Some f /\ nth_error (md_forms d9) i = Some f.
Proof.
  intros Ht T7 T8 H7 H8 H9 Hs. unfold m7_migrate in H7. rewrite Ht in H7. unfold m8_migrate in H8. rewrite T7 in H8. unfold m9_migrate in H9. rewrite T8 in H9.
  assert (Hin : In (k, i) (m9_NEW_CACHES t)).
  { rewrite m9_NEW_is_current. apply (dget_In _ key_eqb_ok), WORDS_CACHES_dget, Hs. }
  destruct (chain_source t k i Hin) as (a & c & A1 & A2 & A3 & A4).
  destruct (migrate_ok _ _ _ _ (m9_new t) H9) as (_ & _ & C9). destruct (C9 k i Hin) as (a' & f & F1 & F2 & F3). rewrite A1 in F1. injection F1 as <-.
  destruct (m8_old t) as (U1 & U2 & _). destruct (C50_same_key _ _ _ _ _ _ _ U1 U2 (m8_new t) H8 A2 A3) as (f' & G1 & G2).
  exists c, f. split; [exact A4|]. split; congruence.
Qed.
(** the form in each current slot is the form the data had before m_0007 under the same key *)
Theorem C52_chain_keeps_forms : forall d d' t i k j,
  wt_call (md_type d) = Some t -> t <> WT_PRONOUN -> fits (m7_OLD_CACHES t) (md_forms d) -> m7_to_m9 d = Ok d' ->
  slot t i k -> In (before_m8 k, j) (m7_OLD_CACHES t) ->
  exists f, nth_error (md_forms d) j = Some f /\ nth_error (md_forms d') i = Some f.
Proof.
  intros d d' t i k j Ht Hp Hf H Hs Hj. destruct (m7_m8_m9 d t Ht Hf) as (d7 & d8 & d9 & H7 & H8 & H9 & T7 & T8 & _ & _).
  unfold m7_to_m9 in H. rewrite H7 in H. simpl in H. rewrite H8 in H. simpl in H. rewrite H9 in H. injection H as <-.
  destruct (chain_form _ _ _ _ t i k Ht T7 T8 H7 H8 H9 Hs) as (c & f & A & B & C).
  assert (Em : middle t k = k) by (unfold middle; destruct (wt_eqb t WT_PRONOUN) eqn:E; [apply wt_eqb_ok in E; contradiction|reflexivity]). rewrite Em in A.
  unfold m7_migrate in H7. rewrite Ht in H7. destruct (m7_old t) as (U1 & U2 & _).
  destruct (C50_same_key _ _ _ _ _ _ _ U1 U2 (m7_new t) H7 A Hj) as (f' & G1 & G2). exists f. split; congruence.
Qed.
Theorem C52_chain_keeps_pronouns : forall d d' i k,
  wt_call (md_type d) = Some WT_PRONOUN -> fits (m7_OLD_CACHES WT_PRONOUN) (md_forms d) -> m7_to_m9 d = Ok d' -> slot WT_PRONOUN i k ->
  exists j f, In (third_person k, j) (m7_OLD_CACHES WT_PRONOUN) /\ nth_error (md_forms d) j = Some f /\ nth_error (md_forms d') i = Some f.
Proof.
  intros d d' i k Ht Hf H Hs. set (t := WT_PRONOUN) in *. destruct (m7_m8_m9 d t Ht Hf) as (d7 & d8 & d9 & H7 & H8 & H9 & T7 & T8 & _ & _).
  unfold m7_to_m9 in H. rewrite H7 in H. simpl in H. rewrite H8 in H. simpl in H. rewrite H9 in H. injection H as <-.
  destruct (chain_form _ _ _ _ t i k Ht T7 T8 H7 H8 H9 Hs) as (c & f & A & B & C).
  assert (Em : before_m8 (middle t k) = third_person k).
  { unfold t, middle. simpl. assert (L := slot_length _ _ _ Hs). simpl in L. do 5 (destruct k as [|? k]; try discriminate L). reflexivity. }
  rewrite Em in A. assert (G : exists j, In (third_person k, j) (m7_OLD_CACHES t)).
  { assert (E : forallb (fun kv => dmem key_eqb (fst kv) (m7_OLD_CACHES t)) (m7_NEW_CACHES t) = true) by (vm_compute; reflexivity).
    rewrite forallb_forall in E. specialize (E _ A). cbn [fst] in E. apply (dmem_iff _ key_eqb_ok) in E. apply in_map_iff in E as ([k' j] & E1 & E2). simpl in E1. subst k'. eauto. }
  destruct G as [j Hj]. unfold m7_migrate in H7. rewrite Ht in H7. destruct (m7_old t) as (U1 & U2 & _).
  destruct (C50_same_key _ _ _ _ _ _ _ U1 U2 (m7_new t) H7 A Hj) as (f' & G1 & G2). exists j, f. split; [exact Hj|]. split; congruence.
Qed.
(** which slots have such a key: all but the comparative of adjectives *)
Theorem C52_slots_with_an_old_key : forall t i k, t <> WT_PRONOUN -> slot t i k ->
  (exists j, In (before_m8 k, j) (m7_OLD_CACHES t)) \/ (t = WT_ADJECTIVE /\ k = comparative_slot).
Proof.
  intros t i k Hp Hs.
  assert (E : forallb (fun k => dmem key_eqb (before_m8 k) (m7_OLD_CACHES t) || (wt_eqb t WT_ADJECTIVE && key_eqb k comparative_slot) || wt_eqb t WT_PRONOUN) (INVERTED_WORDS_CACHES t) = true).
  { clear. revert t. apply all_word_types_forallb. vm_compute. reflexivity. }
  rewrite forallb_forall in E. specialize (E k (nth_error_In _ _ Hs)). apply orb_prop in E as [E|E]; [|apply wt_eqb_ok in E; contradiction].
  apply orb_prop in E as [E|E].
  - left. apply (dmem_iff _ key_eqb_ok) in E. apply in_map_iff in E as ([k' j] & E1 & E2). simpl in E1. subst k'. eauto.
  - right. apply andb_prop in E as [E1 E2]. apply wt_eqb_ok in E1. apply key_eqb_ok in E2. auto.
Qed.

(** ** C57: m_0007 does not keep the comparative of adjectives *)
(** FINDING: the new comparative slot receives the short plural form *)
Theorem C57_comparative_is_short_plural : forall d d' i,
  wt_call (md_type d) = Some WT_ADJECTIVE -> fits (m7_OLD_CACHES WT_ADJECTIVE) (md_forms d) -> m7_to_m9 d = Ok d' ->
  slot WT_ADJECTIVE i comparative_slot ->
  exists j f, In ([Some ADJECTIVE_FORM_SHORT; None; Some NUMBER_PLURAL; None; None; None], j) (m7_OLD_CACHES WT_ADJECTIVE) /\
    nth_error (md_forms d) j = Some f /\ nth_error (md_forms d') i = Some f.
Proof.
  intros d d' i Ht Hf H Hs. set (t := WT_ADJECTIVE) in *. destruct (m7_m8_m9 d t Ht Hf) as (d7 & d8 & d9 & H7 & H8 & H9 & T7 & T8 & _ & _).
  unfold m7_to_m9 in H. rewrite H7 in H. simpl in H. rewrite H8 in H. simpl in H. rewrite H9 in H. injection H as <-.
  destruct (chain_form _ _ _ _ t i _ Ht T7 T8 H7 H8 H9 Hs) as (c & f & A & B & C). change (before_m8 (middle t comparative_slot)) with comparative_slot in A.
  unfold m7_migrate in H7. rewrite Ht in H7. apply migrate_ok in H7 as (_ & _ & H7); [|apply m7_new]. destruct (H7 _ _ A) as (j & f' & F1 & F2 & F3).
  assert (E : nearest_old_index (m7_OLD_CACHES t) comparative_slot = Ok 147) by (vm_compute; reflexivity). rewrite E in F1. injection F1 as <-.
  exists 147, f. split; [apply (dget_In _ key_eqb_ok); vm_compute; reflexivity|]. split; congruence.
Qed.
(** so the comparative forms in the old data do not influence the result at all, though the old table has them *)
Definition comparative_key (k : key) : bool := mem (opt_eqb prop_eqb) (Some GRADE_COMPARATIVE) k.
Definition m7_source_plain : bool :=
  forallb (fun kv => negb (comparative_key (fst kv)) || key_eqb (fst kv) comparative_slot) (m7_NEW_CACHES WT_ADJECTIVE).
Theorem C57_comparatives_are_lost : forall d1 d2 e1 e2,
  wt_call (md_type d1) = Some WT_ADJECTIVE -> wt_call (md_type d2) = Some WT_ADJECTIVE ->
  (forall k j, In (k, j) (m7_OLD_CACHES WT_ADJECTIVE) -> ~ In (Some GRADE_COMPARATIVE) k -> nth_error (md_forms d1) j = nth_error (md_forms d2) j) ->
  m7_migrate d1 = Ok e1 -> m7_migrate d2 = Ok e2 -> md_forms e1 = md_forms e2.
Proof.
  intros d1 d2 e1 e2 T1 T2 H H1 H2. unfold m7_migrate in *. rewrite T1 in H1. rewrite T2 in H2. set (t := WT_ADJECTIVE) in *.
  destruct (migrate_ok _ _ _ _ (m7_new t) H1) as (_ & L1 & C1). destruct (migrate_ok _ _ _ _ (m7_new t) H2) as (_ & L2 & C2).
  apply nth_error_ext. intros i. destruct (Nat.lt_ge_cases i (length (m7_NEW_CACHES t))) as [Hi|Hi];
    [|rewrite !(proj2 (nth_error_None _ _)) by lia; reflexivity].
  destruct (numbering_has _ i (m7_new t) Hi) as [k Hk]. destruct (C1 k i Hk) as (j & f1 & A1 & B1 & D1). destruct (C2 k i Hk) as (j' & f2 & A2 & B2 & D2).
  rewrite A1 in A2. injection A2 as <-. rewrite D1, D2, <- B1, <- B2.
  assert (E : exists ko, In (ko, j) (m7_OLD_CACHES t) /\ ~ In (Some GRADE_COMPARATIVE) ko); [|destruct E as (ko & E1 & E2); exact (H ko j E1 E2)].
  clear - Hk A1. assert (P : m7_source_plain = true) by (vm_compute; reflexivity). unfold m7_source_plain in P. rewrite forallb_forall in P. specialize (P _ Hk). cbn [fst] in P.
  assert (M : forall k', comparative_key k' = false -> ~ In (Some GRADE_COMPARATIVE) k').
  { intros k' Hc. apply (mem_false _ (opt_eqb_ok _ prop_eqb_ok)), Hc. }
  assert (Q : k = comparative_slot \/ (k <> comparative_slot /\ comparative_key k = false)).
  { destruct (key_eqb k comparative_slot) eqn:E; [left; apply key_eqb_ok, E|right]. split; [apply (eqb_ok_neq _ key_eqb_ok), E|].
    rewrite orb_false_r in P. destruct (comparative_key k); [discriminate P|reflexivity]. }
  destruct Q as [->|[Hne Hc]].
  - assert (E : nearest_old_index (m7_OLD_CACHES t) comparative_slot = Ok 147) by (vm_compute; reflexivity). rewrite E in A1. injection A1 as <-.
    exists [Some ADJECTIVE_FORM_SHORT; None; Some NUMBER_PLURAL; None; None; None]. split; [apply (dget_In _ key_eqb_ok); vm_compute; reflexivity|].
    apply M. vm_compute. reflexivity.
  - assert (E : forallb (fun kv => dmem key_eqb (fst kv) (m7_OLD_CACHES t) || key_eqb (fst kv) comparative_slot) (m7_NEW_CACHES t) = true) by (vm_compute; reflexivity).
    rewrite forallb_forall in E. specialize (E _ Hk). cbn [fst] in E. apply (eqb_ok_neq _ key_eqb_ok) in Hne. rewrite Hne, orb_false_r in E.
    apply (dmem_iff _ key_eqb_ok) in E. apply in_map_iff in E as ([k' jo] & E1 & E2). simpl in E1. subst k'.
    destruct (m7_old t) as (U1 & U2 & _). rewrite (nearest_index_self _ _ _ U2 U1 E2) in A1. injection A1 as <-. exists k. auto.
Qed.
Theorem C57_old_table_has_comparatives : exists j, In ([Some ADJECTIVE_FORM_FULL; Some GRADE_COMPARATIVE; Some NUMBER_SINGULAR; Some CASE_NOMINATIVE; Some GENDER_MASCULINE; Some ANIMALITY_ANIMATE], j) (m7_OLD_CACHES WT_ADJECTIVE).
Proof. exists 1. apply (dget_In _ key_eqb_ok). vm_compute. reflexivity. Qed.

(** ** C56: m_0001 run with the current tables *)
(** FINDING: all forms of an adjective become one form: that of (plural, instrumental, -, animate, positive) *)
Theorem C56_m1_destroys_adjectives : forall d, wt_call (md_type d) = Some WT_ADJECTIVE -> fits m1_OLD_ADJECTIVE_CACHE (md_forms d) ->
  exists d' f j, m1_migrate d = Ok d' /\ md_forms d' = repeat f (length (WORDS_CACHES WT_ADJECTIVE)) /\
    In ([Some NUMBER_PLURAL; Some CASE_INSTRUMENTAL; None; Some ANIMALITY_ANIMATE; Some GRADE_POSITIVE], j) m1_OLD_ADJECTIVE_CACHE /\
    nth_error (md_forms d) j = Some f.
Proof.
  intros d Ht Hf. destruct (C52_m1_output_has_current_size d WT_ADJECTIVE _ (or_introl eq_refl) Ht Hf) as (d' & Hd & _ & L & _).
  exists d'. assert (Hj : In ([Some NUMBER_PLURAL; Some CASE_INSTRUMENTAL; None; Some ANIMALITY_ANIMATE; Some GRADE_POSITIVE], 132) m1_OLD_ADJECTIVE_CACHE)
    by (apply (dget_In _ key_eqb_ok); vm_compute; reflexivity).
  assert (Hl := Hf _ _ Hj). destruct (nth_error (md_forms d) 132) as [f|] eqn:Ef; [|apply nth_error_None in Ef; lia]. exists f, 132. split; [exact Hd|]. split; [|auto].
  rewrite m1_adjective in Hd by (apply wt_call_1, Ht). apply migrate_ok in Hd as (_ & _ & C); [|apply current_new].
  apply nth_error_ext. intros i. destruct (Nat.lt_ge_cases i (length (WORDS_CACHES WT_ADJECTIVE))) as [Hi|Hi];
    [|rewrite !(proj2 (nth_error_None _ _)) by (rewrite ?repeat_length; lia); reflexivity].
  destruct (numbering_has _ i (current_new _) Hi) as [k Hk]. destruct (C k i Hk) as (j & g & A & B & D).
  assert (E : forallb (fun kv => match m1_nearest_old_index m1_OLD_ADJECTIVE_CACHE (fst kv) with Ok j => Nat.eqb j 132 | Err _ => false end) (WORDS_CACHES WT_ADJECTIVE) = true)
    by (vm_compute; reflexivity).
  rewrite forallb_forall in E. specialize (E _ Hk). cbn [fst] in E. rewrite A in E. apply Nat.eqb_eq in E. subst j. rewrite D.
  assert (R : nth_error (repeat f (length (WORDS_CACHES WT_ADJECTIVE))) i = Some f).
  { rewrite (nth_error_nth' _ f) by (rewrite repeat_length; exact Hi). f_equal. apply nth_repeat. }
  rewrite R. congruence.
Qed.

(** m_0001 compares the old key with the current key without its first element, position by position; each form is the old form of the first key with
    the most agreements *)
Lemma agreements_count a : forall b, agreements a b (count_equal a b).
Proof.
  induction a as [|x a IH]; intros b; [exists []; split; [constructor|]; split; [reflexivity|]; intros p; split; [intros []|intros (z & Hz & _); destruct p; discriminate]|].
  destruct b as [|y b]; [exists []; split; [constructor|]; split; [reflexivity|]; intros p; split; [intros []|intros (z & _ & Hz); destruct p; discriminate]|].
  destruct (IH b) as (l & Hn & Hl & Hp). cbn [count_equal].
  assert (In_S : forall p, In p (map S l) <-> exists q, p = S q /\ In q l) by (intros p; rewrite in_map_iff; split; intros (q & A & B); exists q; auto).
  assert (Hn' : NoDup (map S l)) by (apply FinFun.Injective_map_NoDup; [intros p q [=]; assumption|exact Hn]).
  destruct (opt_eqb prop_eqb x y) eqn:E.
  - apply opt_eqb_ok in E; [|exact prop_eqb_ok]. subst y. exists (0 :: map S l). split; [constructor; [rewrite In_S; intros (q & [=] & _)|exact Hn']|]. split; [cbn; rewrite map_length, Hl; reflexivity|].
    intros [|p]; cbn [In nth_error]; [split; [exists x; auto|auto]|]. rewrite In_S. split.
    + intros [[=]|(q & [= <-] & Hq)]. apply Hp, Hq.
    + intros H. right. exists p. split; [reflexivity|apply Hp, H].
  - exists (map S l). split; [exact Hn'|]. split; [rewrite map_length; exact Hl|]. intros [|p]; cbn [nth_error]; rewrite In_S.
    + split; [intros (q & [=] & _)|]. intros (z & [= ->] & [= ->]). assert (X : opt_eqb prop_eqb z z = true) by (apply opt_eqb_ok; [exact prop_eqb_ok|reflexivity]). congruence.
    + split; [intros (q & [= <-] & Hq); apply Hp, Hq|]. intros H. exists p. split; [reflexivity|apply Hp, H].
Qed.
Lemma agreements_fun a b n m : agreements a b n -> agreements a b m -> n = m.
Proof.
  intros (l & Hn & <- & Hp) (l' & Hn' & <- & Hp'). apply Nat.le_antisymm; apply NoDup_incl_length; try assumption; intros p; rewrite Hp, Hp'; auto.
Qed.
Lemma m1_best k l : match fold_left (m1_nearest_step k) l (None, (-1)%Z) with
  | (None, b) => l = [] /\ b = (-1)%Z
  | (Some j, b) => exists before kb after, l = before ++ (kb, j) :: after /\ b = Z.of_nat (count_equal kb k) /\
      (forall k' j', In (k', j') l -> count_equal k' k <= count_equal kb k) /\ (forall k' j', In (k', j') before -> count_equal k' k < count_equal kb k)
  end.
Proof.
  induction l as [|[k1 j1] l IH] using rev_ind; [split; reflexivity|]. rewrite fold_left_app. cbn [fold_left]. destruct (fold_left (m1_nearest_step k) l (None, (-1)%Z)) as [[j|] b]; unfold m1_nearest_step; cbn [fst snd].
  - destruct IH as (before & kb & after & El & -> & Hm & Hb). destruct (Z.gtb_spec (Z.of_nat (count_equal k1 k)) (Z.of_nat (count_equal kb k))) as [H|H].
    + exists l, k1, []. split; [reflexivity|]. split; [reflexivity|]. split.
      * intros k' j' Hin. apply in_app_or in Hin as [Hin|[[= -> ->]|[]]]; [apply Hm in Hin; lia|lia].
      * intros k' j' Hin. apply Hm in Hin. lia.
    + exists before, kb, (after ++ [(k1, j1)]). split; [rewrite El, <- app_assoc; reflexivity|]. split; [reflexivity|]. split; [|exact Hb].
      intros k' j' Hin. apply in_app_or in Hin as [Hin|[[= -> ->]|[]]]; [apply Hm in Hin; lia|lia].
  - destruct IH as [-> ->]. assert (G : Z.gtb (Z.of_nat (count_equal k1 k)) (-1) = true) by (apply Z.gtb_lt; lia). rewrite G. exists [], k1, []. split; [reflexivity|]. split; [reflexivity|]. split.
    + intros k' j' [[= -> ->]|[]]. lia.
    + intros k' j' [].
Qed.
Theorem C56_m1_source : forall d d' t old i k,
  In (t, old) [(WT_ADJECTIVE, m1_OLD_ADJECTIVE_CACHE); (WT_PARTICIPLE, m1_OLD_PARTICIPLE_CACHE)] -> wt_call (md_type d) = Some t -> m1_migrate d = Ok d' -> slot t i k ->
  exists before kb j after n f, old = before ++ (kb, j) :: after /\ nth_error (md_forms d) j = Some f /\ nth_error (md_forms d') i = Some f /\
    agreements kb (tl k) n /\ (forall k' j', In (k', j') old -> forall m, agreements k' (tl k) m -> m <= n) /\ (forall k' j', In (k', j') before -> forall m, agreements k' (tl k) m -> m < n).
Proof.
  intros d d' t old i k Hin Ht Hd Hs.
  assert (E : migrate_forms (m1_nearest_old_index old) (WORDS_CACHES t) d = Ok d').
  { destruct Hin as [[= <- <-]|[[= <- <-]|[]]]; [rewrite m1_adjective in Hd by (apply wt_call_1, Ht)|rewrite m1_participle in Hd by (apply wt_call_4, Ht)]; exact Hd. }
  apply migrate_ok in E as (_ & _ & C); [|apply current_new]. apply WORDS_CACHES_dget, (dget_In _ key_eqb_ok) in Hs. destruct (C k i Hs) as (j & f & A & B & D).
  unfold m1_nearest_old_index in A. assert (M := m1_best (tl k) old). destruct (fold_left (m1_nearest_step (tl k)) old (None, (-1)%Z)) as [[j0|] b]; cbn [fst] in A; [|discriminate]. injection A as ->.
  destruct M as (before & kb & after & El & _ & Hm & Hb). exists before, kb, j, after, (count_equal kb (tl k)), f. split; [exact El|]. split; [exact B|]. split; [exact D|]. split; [apply agreements_count|]. split.
  - intros k' j' Hk m Ha. rewrite (agreements_fun _ _ _ _ Ha (agreements_count k' (tl k))). exact (Hm k' j' Hk).
  - intros k' j' Hk m Ha. rewrite (agreements_fun _ _ _ _ Ha (agreements_count k' (tl k))). exact (Hb k' j' Hk).
Qed.
(** a participle keeps the number and the case of each form, where they are specified ... *)
Theorem C56_m1_participles : forall d d' i form time animality number case gender,
  wt_call (md_type d) = Some WT_PARTICIPLE -> m1_migrate d = Ok d' -> slot WT_PARTICIPLE i [form; time; animality; number; case; gender] ->
  exists time' voice number' case' gender' animality' j f, In ([time'; voice; number'; case'; gender'; animality'], j) m1_OLD_PARTICIPLE_CACHE /\
    nth_error (md_forms d) j = Some f /\ nth_error (md_forms d') i = Some f /\ (number <> None -> number' = number) /\ (case <> None -> case' = case).
Proof.
  intros d d' i form time animality number case gender Ht Hd Hs. rewrite m1_participle in Hd by (apply wt_call_4, Ht). apply migrate_ok in Hd as (_ & _ & C); [|apply current_new].
  apply WORDS_CACHES_dget, (dget_In _ key_eqb_ok) in Hs. destruct (C _ i Hs) as (j & f & A & B & D).
  set (test := fun kv : key * nat => match m1_nearest_old_index m1_OLD_PARTICIPLE_CACHE (fst kv), fst kv with
     | Ok j, [_; _; _; n; c; _] => existsb (fun x : key * nat => Nat.eqb (snd x) j && match fst x with [_; _; n'; c'; _; _] =>
         match n with None => true | Some _ => opt_eqb prop_eqb n' n end && match c with None => true | Some _ => opt_eqb prop_eqb c' c end | _ => false end) m1_OLD_PARTICIPLE_CACHE
     | _, _ => false end).
  assert (E : forallb test (WORDS_CACHES WT_PARTICIPLE) = true) by (vm_compute; reflexivity). rewrite forallb_forall in E. specialize (E _ Hs). unfold test in E. cbn [fst snd] in E. rewrite A in E.
  apply existsb_exists in E as ([ko jo] & Hin & E). cbn [fst snd] in E. apply andb_prop in E as [E1 E2]. apply Nat.eqb_eq in E1. subst jo.
  destruct ko as [|time' [|voice [|number' [|case' [|gender' [|animality' [|]]]]]]]; try discriminate. apply andb_prop in E2 as [E2 E3].
  exists time', voice, number', case', gender', animality', j, f. split; [exact Hin|]. split; [exact B|]. split; [exact D|]. split; intros Hne.
  - destruct number; [|congruence]. apply opt_eqb_ok in E2; [exact E2|exact prop_eqb_ok].
  - destruct case; [|congruence]. apply opt_eqb_ok in E3; [exact E3|exact prop_eqb_ok].
Qed.
(** ... but not the tense: present forms get the texts of past forms *)
Theorem C56_m1_mixes_tenses : forall d d', wt_call (md_type d) = Some WT_PARTICIPLE -> m1_migrate d = Ok d' ->
  exists i j f, slot WT_PARTICIPLE i [Some PARTICIPLE_FORM_FULL; Some TIME_PRESENT; Some ANIMALITY_ANIMATE; Some NUMBER_SINGULAR; Some CASE_NOMINATIVE; Some GENDER_FEMININE] /\
    In ([Some TIME_PAST; Some VOICE_DIRECT; Some NUMBER_SINGULAR; Some CASE_NOMINATIVE; Some GENDER_FEMININE; Some ANIMALITY_INANIMATE], j) m1_OLD_PARTICIPLE_CACHE /\
    nth_error (md_forms d) j = Some f /\ nth_error (md_forms d') i = Some f.
Proof.
  intros d d' Ht Hd. rewrite m1_participle in Hd by (apply wt_call_4, Ht). apply migrate_ok in Hd as (_ & _ & C); [|apply current_new].
  set (k := [Some PARTICIPLE_FORM_FULL; Some TIME_PRESENT; Some ANIMALITY_ANIMATE; Some NUMBER_SINGULAR; Some CASE_NOMINATIVE; Some GENDER_FEMININE]).
  destruct (dget key_eqb k (WORDS_CACHES WT_PARTICIPLE)) as [i|] eqn:Ei; [|vm_compute in Ei; discriminate]. assert (Hin := Ei). apply (dget_In _ key_eqb_ok) in Hin.
  destruct (C k i Hin) as (j & f & A & B & D). exists i, j, f. split; [apply WORDS_CACHES_dget; exact Ei|]. split; [|auto].
  apply (dget_In _ key_eqb_ok). assert (X : m1_nearest_old_index m1_OLD_PARTICIPLE_CACHE k = Ok 5) by (vm_compute; reflexivity). rewrite X in A. injection A as <-. vm_compute. reflexivity.
Qed.

(** ** C53 *)
Theorem C53_m2_other_types : forall d, wt_call (md_type d) <> Some WT_NOUN -> m2_migrate d = Ok d.
Proof.
  intros d H. unfold m2_migrate. destruct (Z.eqb (md_type d) 0) eqn:E; [|reflexivity]. apply Z.eqb_eq in E. rewrite E in H. exfalso. apply H. reflexivity.
Qed.
Theorem C53_m2_noun : forall d, wt_call (md_type d) = Some WT_NOUN ->
  (md_patches d = Some [] -> exists d', m2_migrate d = Ok d' /\ same_but_forms d d' /\ md_forms d' = md_forms d ++ skipn 6 (md_forms d)) /\
  (forall patches fs, md_patches d = Some patches -> dget Z.eqb 7%Z patches = Some fs ->
     exists d', m2_migrate d = Ok d' /\ same_but_forms d d' /\ md_forms d' = md_forms d ++ fs) /\
  (forall patches, md_patches d = Some patches -> patches <> [] -> ~ In 7%Z (dkeys patches) -> m2_migrate d = Err KeyError) /\
  (md_patches d = None -> m2_migrate d = Err KeyError).
Proof.
  intros d H. apply wt_call_iff in H. unfold m2_migrate. rewrite <- H. change (negb (Z.eqb (wt_value WT_NOUN) 0)) with false. cbv iota.
  split; [|split; [|split]].
  - intros ->. eexists. split; [reflexivity|]. split; [repeat split|reflexivity].
  - intros patches fs -> Hg. destruct patches as [|p l]; [discriminate Hg|]. rewrite Hg. eexists. split; [reflexivity|]. split; [repeat split|reflexivity].
  - intros patches -> Hn Hk. destruct patches as [|p l]; [contradiction|]. apply (dget_None _ Z_eqb_ok) in Hk. rewrite Hk. reflexivity.
  - intros ->. reflexivity.
Qed.
(** a 12-form noun without patches gets 6 more forms: copies of its plural *)
Theorem C53_m2_twelve : forall d, wt_call (md_type d) = Some WT_NOUN -> md_patches d = Some [] -> length (md_forms d) = 12 ->
  exists d', m2_migrate d = Ok d' /\ length (md_forms d') = 18 /\
    (forall i, i < 12 -> nth_error (md_forms d') i = nth_error (md_forms d) i) /\ (forall i, i < 6 -> nth_error (md_forms d') (12 + i) = nth_error (md_forms d) (6 + i)).
Proof.
  intros d H Hp Hl. destruct (proj1 (C53_m2_noun d H) Hp) as (d' & E & _ & F). exists d'. split; [exact E|]. rewrite F. split; [rewrite app_length, skipn_length; lia|]. split.
  - intros i Hi. apply nth_error_app1. lia.
  - intros i Hi. rewrite nth_error_app2 by lia. rewrite Hl. replace (12 + i - 12) with i by lia.
    rewrite <- (firstn_skipn 6 (md_forms d)) at 2. rewrite nth_error_app2 by (rewrite firstn_length; lia). f_equal. rewrite firstn_length. lia.
Qed.

Theorem C53_m4_other_types : forall d, wt_call (md_type d) <> Some WT_PREPOSITION -> m4_migrate d = Ok d.
Proof.
  intros d H. unfold m4_migrate. destruct (Z.eqb (md_type d) 10) eqn:E; [|reflexivity]. apply Z.eqb_eq in E. rewrite E in H. exfalso. apply H. reflexivity.
Qed.
Theorem C53_m4_preposition : forall d, wt_call (md_type d) = Some WT_PREPOSITION ->
  (forall fs f, md_forms d = fs ++ [f] -> exists d', m4_migrate d = Ok d' /\ same_but_forms d d' /\ md_forms d' = fs ++ [f; f]) /\
  (md_forms d = [] -> m4_migrate d = Err IndexError).
Proof.
  intros d H. apply wt_call_iff in H. unfold m4_migrate. rewrite <- H. change (negb (Z.eqb (wt_value WT_PREPOSITION) 10)) with false. cbv iota. split.
  - intros fs f E. rewrite E, rev_app_distr. simpl. eexists. split; [reflexivity|]. split; [repeat split|]. simpl. rewrite <- app_assoc. reflexivity.
  - intros E. rewrite E. reflexivity.
Qed.
Theorem C53_m5_other_types : forall d, wt_call (md_type d) <> Some WT_PARTICIPLE -> m5_migrate d = Ok d.
Proof.
  intros d H. unfold m5_migrate. destruct (Z.eqb (md_type d) 4) eqn:E; [|reflexivity]. apply Z.eqb_eq in E. rewrite E in H. exfalso. apply H. reflexivity.
Qed.
Theorem C53_m5_participle : forall d, wt_call (md_type d) = Some WT_PARTICIPLE ->
  exists d', m5_migrate d = Ok d' /\ md_type d' = md_type d /\ md_forms d' = md_forms d /\ md_patches d' = md_patches d /\
    (forall k v, In (k, v) (md_props d') <-> In (k, v) (md_props d) /\ k <> u "5").
Proof.
  intros d H. apply wt_call_iff in H. assert (F : forall k v, In (k, v) (ddel str_eqb (u "5") (md_props d)) <-> In (k, v) (md_props d) /\ k <> u "5").
  { intros k v. unfold ddel. rewrite filter_In. cbn [fst]. assert (G := str_eqb_ok (u "5") k). destruct (str_eqb (u "5") k) eqn:E; simpl.
    - split; [intros [_ [=]]|]. intros [_ N]. exfalso. apply N. symmetry. apply G. reflexivity.
    - split; [|tauto]. intros [I _]. split; [exact I|]. intros ->. assert (X : false = true) by (apply G; reflexivity). discriminate. }
  unfold m5_migrate. rewrite <- H. change (negb (Z.eqb (wt_value WT_PARTICIPLE) 4)) with false. cbv iota.
  destruct (dmem str_eqb (u "5") (md_props d)) eqn:E.
  - eexists. split; [reflexivity|]. cbn [md_type md_forms md_patches md_props]. auto.
  - exists d. split; [reflexivity|]. repeat split; auto; intros; apply (dmem_false _ str_eqb_ok) in E.
    + intros ->. apply E. apply in_map_iff. exists (u "5", v). auto.
    + tauto.
Qed.
Theorem C53_m5_idempotent : forall d d', m5_migrate d = Ok d' -> m5_migrate d' = Ok d'.
Proof.
  intros d d' H. unfold m5_migrate in H. destruct (negb (Z.eqb (md_type d) 4)) eqn:E4.
  - injection H as <-. unfold m5_migrate. rewrite E4. reflexivity.
  - destruct (dmem str_eqb (u "5") (md_props d)) eqn:E.
    + injection H as <-. change [53%N] with (u "5"). unfold m5_migrate. cbn [md_type md_props]. rewrite E4.
      assert (G : dmem str_eqb (u "5") (ddel str_eqb (u "5") (md_props d)) = false).
      { apply (dmem_false _ str_eqb_ok). intros G. apply in_map_iff in G as ([k v] & G1 & G2). cbn [fst] in G1. subst k. unfold ddel in G2. apply filter_In in G2 as [_ G2].
        cbn [fst] in G2. rewrite (eqb_ok_refl _ str_eqb_ok) in G2. discriminate. }
      rewrite G. reflexivity.
    + injection H as <-. unfold m5_migrate. rewrite E4, E. reflexivity.
Qed.

(** ** concrete cases *)
(** data of type z with n distinct forms *)
Definition numbered (z : Z) (n : nat) : mdata :=
  {| md_type := z; md_forms := map (fun i => [N.of_nat (100 + i)]) (seq 0 n); md_props := [(u "5", 1%Z); (u "12", 0%Z)]; md_patches := Some [] |}.
Lemma numbered_integer z n : integer_properties (numbered z n).
Proof.
  intros s v [[= <- <-]|[[= <- <-]|[]]].
  - exists (digits_value (u "5")). apply SerFacts.literal_int_text, lit_plain; [discriminate|]. repeat constructor; discriminate.
  - exists (digits_value (u "12")). apply SerFacts.literal_int_text, lit_plain; [discriminate|]. repeat constructor; discriminate.
Qed.
Definition small_old : dict key nat := [([Some NUMBER_SINGULAR; Some CASE_NOMINATIVE], 2); ([Some NUMBER_PLURAL; Some CASE_DATIVE], 0)].
Definition small_new : dict key nat := [([Some NUMBER_PLURAL; Some CASE_DATIVE], 1); ([Some NUMBER_PLURAL; Some CASE_NOMINATIVE], 0)].
Example C50_case : NoDup (dkeys small_old) /\ uniform small_old /\ numbering small_new /\ fits small_old (md_forms (numbered 0 3)) /\
  exists d', migrate_forms (nearest_old_index small_old) small_new (numbered 0 3) = Ok d' /\ md_forms d' = [[102%N]; [100%N]] /\
  migrate_forms (nearest_old_index small_old) small_new (numbered 0 2) = Err IndexError /\ migrate_forms (nearest_old_index []) small_new (numbered 0 2) = Err KeyError.
Proof.
  split; [apply (nodup_check_ok _ key_eqb_ok); vm_compute; reflexivity|]. split; [apply uniform_check_ok; vm_compute; reflexivity|].
  split; [split; [apply (nodup_check_ok _ key_eqb_ok); vm_compute; reflexivity|simpl; apply perm_swap]|].
  split; [apply fits_check_ok; vm_compute; reflexivity|]. eexists. split; [vm_compute; reflexivity|]. vm_compute. auto.
Qed.
Example C51_case : wt_call 2 = Some WT_PRONOUN /\ fits (m9_OLD_CACHES WT_PRONOUN) (md_forms (numbered 2 72)) /\ integer_properties (numbered 2 72) /\
  exists d', m9_migrate (numbered 2 72) = Ok d' /\ firstn 4 (md_forms d') = [[106%N]; [107%N]; [108%N]; [115%N]] /\ length (md_forms d') = 48 /\
  In ([Some NUMBER_SINGULAR; Some CASE_NOMINATIVE; Some PERSON_THIRD; Some GENDER_MASCULINE], 6) (m8_NEW_CACHES WT_PRONOUN).
Proof.
  split; [reflexivity|]. split; [apply fits_check_ok; vm_compute; reflexivity|]. split; [apply numbered_integer|].
  eexists. split; [vm_compute; reflexivity|]. split; [vm_compute; reflexivity|]. split; [vm_compute; reflexivity|]. apply (dget_In _ key_eqb_ok). vm_compute. reflexivity.
Qed.
Example C52_case : forall t, wt_call (wt_value t) = Some t /\ fits (m7_OLD_CACHES t) (md_forms (numbered (wt_value t) 292)) /\ integer_properties (numbered (wt_value t) 292).
Proof.
  intros t. split; [destruct t; reflexivity|]. split; [|apply numbered_integer]. apply fits_check_ok. destruct t; vm_compute; reflexivity.
Qed.
Example C52_noun_case : exists d', m7_to_m9 (numbered 0 18) = Ok d' /\ md_forms d' = md_forms (numbered 0 18).
Proof. eexists. split; [vm_compute; reflexivity|vm_compute; reflexivity]. Qed.
Example C53_case :
  (exists d', m2_migrate (numbered 0 12) = Ok d' /\ length (md_forms d') = 18) /\
  (exists d', m4_migrate (numbered 10 2) = Ok d' /\ md_forms d' = [[100%N]; [101%N]; [101%N]]) /\
  (exists d', m5_migrate (numbered 4 2) = Ok d' /\ md_props d' = [(u "12", 0%Z)]).
Proof.
  split; [|split]; eexists; (split; [vm_compute; reflexivity|vm_compute; reflexivity]).
Qed.
Example C56_case : wt_call 1 = Some WT_ADJECTIVE /\ fits m1_OLD_ADJECTIVE_CACHE (md_forms (numbered 1 144)) /\
  fits m1_OLD_PARTICIPLE_CACHE (md_forms (numbered 4 192)) /\
  exists d', m1_migrate (numbered 1 144) = Ok d' /\ md_forms d' = repeat [232%N] 101.
Proof.
  split; [reflexivity|]. split; [apply fits_check_ok; vm_compute; reflexivity|]. split; [apply fits_check_ok; vm_compute; reflexivity|].
  eexists. split; [vm_compute; reflexivity|vm_compute; reflexivity].
Qed.
Example C57_case : fits (m7_OLD_CACHES WT_ADJECTIVE) (md_forms (numbered 1 148)) /\ slot WT_ADJECTIVE 48 comparative_slot /\
  In (Some GRADE_COMPARATIVE) comparative_slot.
Proof. split; [apply fits_check_ok; vm_compute; reflexivity|]. split; [vm_compute; reflexivity|]. right. left. reflexivity. Qed.
