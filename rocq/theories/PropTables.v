(** * PropTables: C12 for arbitrary schemas, restrictions and banned parts *)
From Coq Require Import Lia.
From Verif Require Import PyBase PyFloat Relations Restrictions Logic PyBaseFacts SpecSlots SpecProps PropsFacts FloatFacts NearestFacts SlotFacts LookupFacts PropSlots.

Lemma F2_length {A B} (R : A -> B -> Prop) l1 l2 : Forall2 R l1 l2 -> length l1 = length l2.
Proof. induction 1; cbn; congruence. Qed.
Lemma full_keys_ordered sch : all_ordered (key_before sch) (full_keys_generator sch).
Proof.
  induction sch as [|g sch IH]; cbn [full_keys_generator]; [repeat constructor|]. apply (flat_map_ordered (before (records g))); [apply before_ordered| |].
  - intros r _. apply (ao_map (key_before sch)); [|exact IH]. intros a b. apply key_before_cons.
  - intros a b x y Hab _ _ Hx Hy. apply in_map_iff in Hx as (x' & <- & _), Hy as (y' & <- & _). exists 0, g, a, b. simpl. auto.
Qed.
Lemma ao_split {A} (R : A -> A -> Prop) l1 a l2 b : all_ordered R (l1 ++ a :: l2) -> In b l1 -> R b a.
Proof.
  intros H Hb. apply In_nth_error in Hb as (i & Hi). assert (L : i < length l1) by (apply nth_error_Some; congruence).
  apply (ao_nth R (l1 ++ a :: l2) i (length l1)); [exact H|exact L|rewrite nth_error_app1 by exact L; exact Hi|].
  rewrite nth_error_app2, Nat.sub_diag by lia. reflexivity.
Qed.
(** the keys of a cache that is being filled *)
Lemma fill_keys cache k cache' r : raw_cache_fill cache k = Ok cache' -> In r (dkeys cache') -> In r (dkeys cache) \/ r = k.
Proof.
  unfold raw_cache_fill. destruct (dmem key_eqb k cache); [intros [= <-]; auto|]. destruct (get_nearest_key k (dkeys cache)) as [nk|]; [|discriminate].
  destruct (dget key_eqb nk cache) as [i|]; [|discriminate]. intros [= <-] H. apply (dmem_iff _ key_eqb_ok) in H. unfold dmem in H. rewrite (dget_dset _ key_eqb_ok) in H.
  destruct (key_eqb k r) eqn:E; [right; apply key_eqb_ok in E; congruence|]. left. apply (dmem_iff _ key_eqb_ok). exact H.
Qed.
Lemma foldM_fill_app l1 : forall l2 cache cache', foldM raw_cache_fill (l1 ++ l2) cache = Ok cache' ->
  exists mid, foldM raw_cache_fill l1 cache = Ok mid /\ foldM raw_cache_fill l2 mid = Ok cache'.
Proof.
  induction l1 as [|k l1 IH]; intros l2 cache cache' H; [exists cache; split; [reflexivity|exact H]|]. cbn [app foldM] in *.
  destruct (raw_cache_fill cache k) as [c1|]; cbn [bind] in *; [|discriminate]. apply IH, H.
Qed.
Lemma foldM_keys l : forall cache cache' r, foldM raw_cache_fill l cache = Ok cache' -> In r (dkeys cache') -> In r (dkeys cache) \/ In r l.
Proof.
  induction l as [|k l IH]; intros cache cache' r H Hr; cbn [foldM] in H; [injection H as <-; auto|]. destruct (raw_cache_fill cache k) as [c1|] eqn:E; cbn [bind] in H; [|discriminate].
  destruct (IH c1 cache' r H Hr) as [H1|H1]; [|right; right; exact H1]. destruct (fill_keys _ _ _ _ E H1) as [H2| ->]; [auto|right; left; reflexivity].
Qed.

(** whatever the tables are (unless they leave no slot at all): every combination is answered with the number of a slot, a combination that belongs to a slot with
    the number of this slot; any other one with the number of a combination c' that is at least as similar to it as every combination with a slot; c' has a slot
    itself or stands earlier in the declaration order *)
Theorem C12_any_tables : forall sch restr parts, let keys := snd (get_cache sch restr parts) in keys <> [] ->
  exists numbers, get_raw_cache keys sch = Ok numbers /\
    (forall c i k, combination sch c -> nth_error keys i = Some k -> agrees c k -> dget key_eqb (map Some c) numbers = Some i) /\
    (forall c, combination sch c -> (forall k, In k keys -> ~ agrees c k) -> length sch <= 20 ->
       exists c' i, combination sch c' /\ dget key_eqb (map Some c) numbers = Some i /\ dget key_eqb (map Some c') numbers = Some i /\ i < length keys /\
         ((exists k, nth_error keys i = Some k /\ agrees c' k) \/ key_before sch (map Some c') (map Some c)) /\
         (forall c2 k, combination sch c2 -> In k keys -> agrees c2 k -> at_least_as_similar (map Some c) (map Some c') (map Some c2))).
Proof.
  intros sch restr parts keys Hne. assert (Ek : keys = restricted_keys_generator sch restr parts) by (unfold keys; rewrite get_cache_eq; reflexivity). rewrite Ek in *. clear keys Ek.
  set (keys := restricted_keys_generator sch restr parts) in *. destruct (raw_cache_spec sch restr parts Hne) as (numbers & E & H1 & H2 & H3). fold keys in E, H1, H3.
  exists numbers. split; [exact E|]. split; [exact H3|]. intros c Hc Hno Hl.
  assert (Hin : In (map Some c) (full_keys_generator sch)) by (apply full_keys_spec; exists c; auto). apply in_split in Hin as (l1 & l2 & Hf).
  assert (Hord := full_keys_ordered sch). rewrite Hf in Hord. unfold get_raw_cache in E. rewrite Hf in E.
  apply foldM_fill_app in E as (mid & E1 & E2). cbn [foldM] in E2. destruct (raw_cache_fill mid (map Some c)) as [c3|] eqn:E3; cbn [bind] in E2; [|discriminate].
  destruct (fill_all (length keys) l1 (raw_cache_phase1 keys sch) (phase1_nonempty sch restr parts Hne) (phase1_below sch restr parts)) as (mid' & E1' & Mne & Mb & Mkeep & _).
  rewrite E1 in E1'. injection E1' as <-.
  assert (Hmid : dget key_eqb (map Some c) mid = None).
  { destruct (dget key_eqb (map Some c) mid) as [i|] eqn:Em; [|reflexivity]. exfalso. assert (Hk : In (map Some c) (dkeys mid)) by (apply (dmem_iff _ key_eqb_ok); unfold dmem; rewrite Em; reflexivity).
    destruct (foldM_keys _ _ _ _ E1 Hk) as [H|H].
    - apply (dmem_iff _ key_eqb_ok) in H. unfold dmem in H. destruct (dget key_eqb (map Some c) (raw_cache_phase1 keys sch)) as [j|] eqn:Ej; [|discriminate].
      apply (phase1_spec sch restr parts) in Ej as (c0 & k & _ & Ec & Hk' & Ha). apply Some_inj_map in Ec. subst c0. apply (Hno k); [eapply nth_error_In; exact Hk'|exact Ha].
    - exact (key_before_irrefl sch _ (ao_split _ _ _ _ _ Hord H)). }
  destruct (fill_spec (length keys) mid (map Some c) Mne Mb) as (c3' & E3' & Cne & Cb & Ckeep & _ & Cnew). rewrite E3 in E3'. injection E3' as <-.
  destruct (Cnew Hmid) as (nk & i & Hnk & Hi & Hci).
  destruct (fill_all (length keys) l2 c3 Cne Cb) as (numbers' & E4 & _ & Nb & Nkeep & _). rewrite E2 in E4. injection E4 as <-.
  assert (Hnki : dget key_eqb nk numbers = Some i) by (apply Nkeep, Ckeep, Hi).
  assert (Hsim : forall b, In b (dkeys mid) -> at_least_as_similar (map Some c) nk b).
  { intros b Hb. apply (C14_nearest_is_maximal (map Some c) (dkeys mid)); [rewrite map_length, <- (F2_length _ _ _ Hc); exact Hl|apply get_nearest_key_iff; exact Hnk|exact Hb]. }
  assert (Hadm : forall c2 k, combination sch c2 -> In k keys -> agrees c2 k -> at_least_as_similar (map Some c) nk (map Some c2)).
  { intros c2 k Hc2 Hk Ha. apply Hsim. apply In_nth_error in Hk as (j & Hj). apply (dmem_iff _ key_eqb_ok). unfold dmem. rewrite (Mkeep (map Some c2) j); [reflexivity|].
    apply (phase1_spec sch restr parts). exists c2, k. auto. }
  destruct (foldM_keys _ _ _ _ E1 (nearest_in _ _ _ Hnk)) as [H|H].
  - apply (dmem_iff _ key_eqb_ok) in H. unfold dmem in H. destruct (dget key_eqb nk (raw_cache_phase1 keys sch)) as [j|] eqn:Ej; [|discriminate].
    assert (Hj : dget key_eqb nk mid = Some j) by (apply Mkeep; exact Ej). rewrite Hi in Hj. injection Hj as <-.
    apply (phase1_spec sch restr parts) in Ej as (c' & k & Hc' & -> & Hk & Ha). exists c', i. split; [exact Hc'|]. split; [apply Nkeep; exact Hci|]. split; [exact Hnki|]. split; [exact (Nb _ _ Hnki)|].
    split; [left; exists k; auto|exact Hadm].
  - assert (Hf' : In nk (full_keys_generator sch)) by (rewrite Hf; apply in_app_iff; left; exact H). apply full_keys_spec in Hf' as (c' & Hc' & ->).
    exists c', i. split; [exact Hc'|]. split; [apply Nkeep; exact Hci|]. split; [exact Hnki|]. split; [exact (Nb _ _ Hnki)|]. split; [right; exact (ao_split _ _ _ _ _ Hord H)|exact Hadm].
Qed.
(** FINDING: with other tables than the shipped ones the answer need not be the slot of a most similar combination, because combinations answered before compete as well *)
Theorem C12_any_tables_refuted : exists sch restr parts c numbers i k, length sch <= 20 /\ combination sch c /\ (forall k', In k' (snd (get_cache sch restr parts)) -> ~ agrees c k') /\
  get_raw_cache (snd (get_cache sch restr parts)) sch = Ok numbers /\ dget key_eqb (map Some c) numbers = Some i /\ nth_error (snd (get_cache sch restr parts)) i = Some k /\
  exists c2 k2, combination sch c2 /\ In k2 (snd (get_cache sch restr parts)) /\ agrees c2 k2 /\
    forall c', combination sch c' -> agrees c' k -> ~ at_least_as_similar (map Some c) (map Some c') (map Some c2).
Proof.
  exists [R_NUMBER; R_GENDER], [], [[NUMBER_SINGULAR; GENDER_NEUTER]; [NUMBER_SINGULAR; GENDER_FEMININE]; [NUMBER_PLURAL; GENDER_MASCULINE]; [NUMBER_PLURAL; GENDER_FEMININE]],
    [NUMBER_PLURAL; GENDER_FEMININE].
  eexists _, 0, [Some NUMBER_SINGULAR; Some GENDER_MASCULINE]. split; [cbn; lia|]. split; [repeat constructor; cbn; tauto|]. split.
  { intros k' H. vm_compute in H. repeat (destruct H as [<-|H]; [intros X; inversion X as [|? ? ? ? A B]; subst; try (inversion B as [|? ? ? ? A' ?]; subst; destruct A'; discriminate); destruct A; discriminate|]). destruct H. }
  split; [vm_compute; reflexivity|]. split; [vm_compute; reflexivity|]. split; [vm_compute; reflexivity|].
  exists [NUMBER_PLURAL; GENDER_NEUTER], [Some NUMBER_PLURAL; Some GENDER_NEUTER]. split; [repeat constructor; cbn; tauto|]. split; [vm_compute; tauto|]. split; [repeat constructor; right; reflexivity|].
  intros c' _ Ha. inversion Ha as [|p1 o1 c1 k1 H1 Hb]; subst. destruct H1 as [X|X]; [discriminate X|]. injection X as <-.
  inversion Hb as [|p2 o2 c2 k2 H2 Hn]; subst. destruct H2 as [X|X]; [discriminate X|]. injection X as <-. inversion Hn; subst. vm_compute. intros [H|[H _]]; [inversion H|discriminate].
Qed.
(** the shipped tables have slots *)
Example C12_any_tables_case : forall t, snd (get_cache (schema t) (RESTRICTIONS t) (RESTRICTED_KEY_PARTS t)) <> [] /\ length (schema t) <= 20.
Proof. intros []; (split; [vm_compute; discriminate|cbn; lia]). Qed.
