(** * MigrationFacts: lemmas about migrate_forms and the tables of the migrations *)
From Coq Require Import Permutation Lia.
From Verif Require Import PyBase PyBaseFacts Relations Restrictions Logic Data Words SpecProps PropsFacts SpecSlots SlotFacts NearestFacts LookupFacts WordFacts
  SerFacts MigrationTables Migrations SpecMigrations.

Section step.
  Variables (near : key -> result nat) (old : list str).
  Local Notation step := (migrate_step near old).

  Lemma step_ok acc kv r : step acc kv = Ok r <->
    exists j f, near (fst kv) = Ok j /\ nth_error old j = Some f /\ snd kv < length acc /\ r = list_set (snd kv) f acc.
  Proof.
    unfold migrate_step. split.
    - intros H. apply bind_ok in H as (j & H1 & H). apply bind_ok in H as (f & H2 & H). apply py_nth_ok in H2.
      destruct (Nat.ltb (snd kv) (length acc)) eqn:E; [|discriminate]. injection H as <-. apply Nat.ltb_lt in E. eauto 8.
    - intros (j & f & H1 & H2 & H3 & ->). rewrite H1. simpl. apply py_nth_ok in H2. rewrite H2. simpl. apply Nat.ltb_lt in H3. rewrite H3. reflexivity.
  Qed.

  Lemma steps_ok l : forall acc r, NoDup (map snd l) -> foldM step l acc = Ok r ->
    length r = length acc /\
    (forall k i, In (k, i) l -> exists j f, near k = Ok j /\ nth_error old j = Some f /\ nth_error r i = Some f) /\
    (forall i, ~ In i (map snd l) -> nth_error r i = nth_error acc i).
  Proof.
    induction l as [|[k i] l IH]; intros acc r Hn H; simpl in *.
    - injection H as <-. split; [reflexivity|]. split; [intros k i []|reflexivity].
    - destruct (step acc (k, i)) as [acc'|e] eqn:E; [|discriminate]. apply step_ok in E as (j & f & E1 & E2 & E3 & ->). simpl in *.
      inversion Hn as [|? ? Hi Hn']; subst. destruct (IH _ _ Hn' H) as (L & C & U). rewrite list_set_length in L. split; [exact L|]. split.
      + intros k0 i0 [[= -> ->]|Hin]; [|apply C, Hin]. exists j, f. split; [exact E1|]. split; [exact E2|].
        rewrite (U i0 Hi), list_set_nth, Nat.eqb_refl. apply Nat.ltb_lt in E3. rewrite E3. reflexivity.
      + intros i0 Hi0. rewrite U by (intros G; apply Hi0; right; exact G). rewrite list_set_nth.
        destruct (Nat.eqb i i0) eqn:Ei; [|reflexivity]. apply Nat.eqb_eq in Ei. exfalso. apply Hi0. left. exact Ei.
  Qed.

  Lemma steps_total l : forall acc,
    (forall k i, In (k, i) l -> i < length acc /\ exists j, near k = Ok j /\ j < length old) ->
    exists r, foldM step l acc = Ok r.
  Proof.
    induction l as [|[k i] l IH]; intros acc H; simpl; [eauto|].
    destruct (H k i (or_introl eq_refl)) as (Hi & j & Hj & Hl). destruct (nth_error old j) as [f|] eqn:Ef; [|apply nth_error_None in Ef; lia].
    rewrite (proj2 (step_ok acc (k, i) (list_set i f acc))) by (exists j, f; auto).
    apply IH. intros k0 i0 H0. rewrite list_set_length. apply H. right. exact H0.
  Qed.

  Lemma steps_err l : forall acc e, (forall k i, In (k, i) l -> i < length acc) -> foldM step l acc = Err e ->
    exists k i, In (k, i) l /\ (near k = Err e \/ exists j, near k = Ok j /\ length old <= j /\ e = IndexError).
  Proof.
    induction l as [|[k i] l IH]; intros acc e H E; simpl in E; [discriminate|].
    destruct (step acc (k, i)) as [acc'|e'] eqn:Es.
    - apply step_ok in Es as (j & f & _ & _ & _ & ->). destruct (IH _ _ (fun k0 i0 H0 => eq_ind_r (fun n => i0 < n) (H k0 i0 (or_intror H0)) (list_set_length _ _ _)) E) as (k0 & i0 & G1 & G2).
      exists k0, i0. split; [right; exact G1|exact G2].
    - injection E as ->. exists k, i. split; [left; reflexivity|]. unfold migrate_step in Es. simpl in Es. destruct (near k) as [j|e'] eqn:En.
      + right. exists j. split; [reflexivity|]. simpl in Es. unfold py_nth in Es. destruct (nth_error old j) eqn:Ej; simpl in Es.
        * specialize (H k i (or_introl eq_refl)). apply Nat.ltb_lt in H. rewrite H in Es. discriminate.
        * apply nth_error_None in Ej. split; [exact Ej|]. congruence.
      + left. simpl in Es. congruence.
  Qed.
End step.

Lemma numbering_lt table k i : numbering table -> In (k, i) table -> i < length table.
Proof.
  intros [_ H] Hin. assert (G : In i (seq 0 (length table))).
  { apply (Permutation_in _ H). apply in_map_iff. exists (k, i). auto. }
  apply in_seq in G. lia.
Qed.
Lemma numbering_nodup table : numbering table -> NoDup (map snd table).
Proof. intros [_ H]. apply (Permutation_NoDup (Permutation_sym H)), seq_NoDup. Qed.
Lemma numbering_has table i : numbering table -> i < length table -> exists k, In (k, i) table.
Proof.
  intros [_ H] Hi. assert (G : In i (map snd table)).
  { apply (Permutation_in _ (Permutation_sym H)), in_seq. lia. }
  apply in_map_iff in G as ([k j] & E & G). simpl in E. subst j. eauto.
Qed.

Lemma migrate_ok near new d d' : numbering new -> migrate_forms near new d = Ok d' ->
  same_but_forms d d' /\ length (md_forms d') = length new /\
  forall k i, In (k, i) new -> exists j f, near k = Ok j /\ nth_error (md_forms d) j = Some f /\ nth_error (md_forms d') i = Some f.
Proof.
  intros Hn H. unfold migrate_forms in H. apply bind_ok in H as (r & H & E). injection E as <-.
  apply steps_ok in H as (L & C & _); [|apply numbering_nodup, Hn]. rewrite repeat_length in L. split; [repeat split|]. split; [exact L|exact C].
Qed.
Lemma migrate_total near new d : numbering new -> (forall k i, In (k, i) new -> exists j, near k = Ok j /\ j < length (md_forms d)) ->
  exists d', migrate_forms near new d = Ok d'.
Proof.
  intros Hn H. unfold migrate_forms. destruct (steps_total near (md_forms d) new (repeat [] (length new))) as [r Hr].
  - intros k i Hi. rewrite repeat_length. split; [exact (numbering_lt _ _ _ Hn Hi)|apply (H k i Hi)].
  - rewrite Hr. simpl. eauto.
Qed.
Lemma migrate_err near new d e : numbering new -> migrate_forms near new d = Err e ->
  exists k i, In (k, i) new /\ (near k = Err e \/ exists j, near k = Ok j /\ length (md_forms d) <= j /\ e = IndexError).
Proof.
  intros Hn H. unfold migrate_forms in H. apply bind_err in H as [H|(r & _ & H)]; [|discriminate].
  apply steps_err in H; [exact H|]. intros k i Hi. rewrite repeat_length. exact (numbering_lt _ _ _ Hn Hi).
Qed.

(** ** nearest_old_index *)
Lemma nearest_index_spec old k : old = [] /\ nearest_old_index old k = Err KeyError \/
  exists ko j, get_nearest_key k (dkeys old) = Some ko /\ dget key_eqb ko old = Some j /\ In (ko, j) old /\ nearest_old_index old k = Ok j.
Proof.
  unfold nearest_old_index. destruct (get_nearest_key k (dkeys old)) as [ko|] eqn:E.
  - right. assert (H : In ko (dkeys old)) by (apply (nearest_in k), get_nearest_key_iff, E).
    destruct (dget_map_fst_in key_eqb key_eqb_ok old ko H) as [j Hj]. exists ko, j. rewrite Hj. repeat split; auto. apply (dget_In _ key_eqb_ok), Hj.
  - left. apply get_nearest_key_none in E. destruct old; [auto|discriminate].
Qed.
Lemma nearest_index_self old k j : uniform old -> NoDup (dkeys old) -> In (k, j) old -> nearest_old_index old k = Ok j.
Proof.
  intros (n & Hn & Hu) Hd Hin. unfold nearest_old_index. rewrite nearest_self.
  - rewrite (In_dget _ key_eqb_ok _ _ _ Hd Hin). reflexivity.
  - rewrite (Hu _ _ Hin). exact Hn.
  - intros a Ha. apply in_map_iff in Ha as ([a' j'] & <- & Ha). simpl. rewrite (Hu _ _ Ha), (Hu _ _ Hin). reflexivity.
  - apply in_map_iff. exists (k, j). auto.
Qed.

(** ** checks of the shipped tables *)
Definition numbering_check (table : dict key nat) : bool :=
  nodup_check key_eqb (dkeys table) && list_eqb Nat.eqb (map snd table) (seq 0 (length table)).
Lemma numbering_check_ok table : numbering_check table = true -> numbering table.
Proof.
  unfold numbering_check. intros H. apply andb_prop in H as [H1 H2]. split; [exact (nodup_check_ok _ key_eqb_ok _ H1)|].
  apply (list_eqb_ok _ Nat.eqb_eq) in H2. rewrite H2. apply Permutation_refl.
Qed.
Definition uniform_check (table : dict key nat) : bool :=
  match table with [] => true | (k, _) :: _ => Nat.leb (length k) 8 && forallb (fun kv => Nat.eqb (length (fst kv)) (length k)) table end.
Lemma uniform_check_ok table : uniform_check table = true -> uniform table.
Proof.
  unfold uniform_check. destruct table as [|[k0 j0] l] eqn:E; [intros _; exists 0; split; [lia|intros k j []]|].
  rewrite <- E. intros H. apply andb_prop in H as [H1 H2]. exists (length k0). split; [apply Nat.leb_le in H1; lia|].
  intros k j Hin. rewrite forallb_forall in H2. apply Nat.eqb_eq, (H2 (k, j) Hin).
Qed.
Definition old_check (table : dict key nat) : bool :=
  nodup_check key_eqb (dkeys table) && uniform_check table && negb (Nat.eqb (length table) 0).
Lemma old_check_ok table : old_check table = true -> NoDup (dkeys table) /\ uniform table /\ table <> [].
Proof.
  unfold old_check. intros H. apply andb_prop in H as [H H3]. apply andb_prop in H as [H1 H2]. split; [exact (nodup_check_ok _ key_eqb_ok _ H1)|].
  split; [apply uniform_check_ok, H2|]. intros ->. discriminate H3.
Qed.

Lemma m7_new t : numbering (m7_NEW_CACHES t).
Proof. apply numbering_check_ok. revert t. apply all_word_types_forallb. vm_compute. reflexivity. Qed.
Lemma m8_new t : numbering (m8_NEW_CACHES t).
Proof. apply numbering_check_ok. revert t. apply all_word_types_forallb. vm_compute. reflexivity. Qed.
Lemma m9_new t : numbering (m9_NEW_CACHES t).
Proof. apply numbering_check_ok. revert t. apply all_word_types_forallb. vm_compute. reflexivity. Qed.
Lemma m7_old t : NoDup (dkeys (m7_OLD_CACHES t)) /\ uniform (m7_OLD_CACHES t) /\ m7_OLD_CACHES t <> [].
Proof. apply old_check_ok. revert t. apply all_word_types_forallb. vm_compute. reflexivity. Qed.
Lemma m8_old t : NoDup (dkeys (m8_OLD_CACHES t)) /\ uniform (m8_OLD_CACHES t) /\ m8_OLD_CACHES t <> [].
Proof. apply old_check_ok. revert t. apply all_word_types_forallb. vm_compute. reflexivity. Qed.
Lemma m9_old t : NoDup (dkeys (m9_OLD_CACHES t)) /\ uniform (m9_OLD_CACHES t) /\ m9_OLD_CACHES t <> [].
Proof. apply old_check_ok. revert t. apply all_word_types_forallb. vm_compute. reflexivity. Qed.
Lemma current_new t : numbering (WORDS_CACHES t).
Proof. apply numbering_check_ok. revert t. apply all_word_types_forallb. vm_compute. reflexivity. Qed.

Lemma m9_NEW_is_current t : m9_NEW_CACHES t = WORDS_CACHES t.
Proof. destruct t; vm_compute; reflexivity. Qed.

(** the number of forms the result has is enough for the next migration *)
Definition fits_check (table : dict key nat) (n : nat) : bool := forallb (fun kv => Nat.ltb (snd kv) n) table.
Lemma fits_check_ok table forms : fits_check table (length forms) = true -> fits table forms.
Proof. intros H k j Hin. unfold fits_check in H. rewrite forallb_forall in H. apply Nat.ltb_lt, (H (k, j) Hin). Qed.
Lemma m7_m8_fit t : fits_check (m8_OLD_CACHES t) (length (m7_NEW_CACHES t)) = true.
Proof. revert t. apply all_word_types_forallb. vm_compute. reflexivity. Qed.
Lemma m8_m9_fit t : fits_check (m9_OLD_CACHES t) (length (m8_NEW_CACHES t)) = true.
Proof. revert t. apply all_word_types_forallb. vm_compute. reflexivity. Qed.
Lemma m9_self_fit t : t <> WT_PRONOUN -> m9_OLD_CACHES t = WORDS_CACHES t.
Proof. intros H. destruct t; try (exfalso; apply H; reflexivity); vm_compute; reflexivity. Qed.
