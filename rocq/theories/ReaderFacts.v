(** * ReaderFacts: what a reader sees while words are added *)
From Coq Require Import Lia.
From Verif Require Import PyBase PyBaseFacts Relations Logic Data Words Dictionary Templates Concurrent Readers SpecProps SpecDictionary SpecConcurrent SpecReaders
  WordFacts DictFacts ConcurrentFacts.

(** keys are only added, at the end *)
Definition grows (D D' : dictionary) : Prop := exists more, dkeys D' = dkeys D ++ more.
Lemma grows_refl D : grows D D.
Proof. exists []. rewrite app_nil_r. reflexivity. Qed.
Lemma grows_trans A B C : grows A B -> grows B C -> grows A C.
Proof. intros [m E] [n F]. exists (m ++ n). rewrite F, E, app_assoc. reflexivity. Qed.
Lemma grows_dset d t f : grows d (dset str_eqb t f d).
Proof. unfold grows. rewrite (dkeys_dset _ str_eqb_ok). destruct (dmem str_eqb t d); [exists []; rewrite app_nil_r; reflexivity|eexists; reflexivity]. Qed.
Lemma grows_aw U d pc : grows d (fst (aw_step U d pc)).
Proof. destruct pc as [[|f fs]|f s rest|f s rest|f s rest|r]; cbn [aw_step fst]; try apply grows_refl; apply grows_dset. Qed.
Lemma has_word_keys d t : has_word d t = true <-> In t (dkeys d).
Proof. unfold has_word. apply (dmem_iff _ str_eqb_ok). Qed.
Lemma grows_has D D' t : grows D D' -> has_word D t = true -> has_word D' t = true.
Proof. intros [m E] H. apply has_word_keys. apply has_word_keys in H. rewrite E. apply in_app_iff. left. exact H. Qed.
Lemma dkeys_length (d : dictionary) : length (dkeys d) = length d.
Proof. apply map_length. Qed.
Lemma grows_length D D' : grows D D' -> length D <= length D'.
Proof. intros [m E]. rewrite <- !dkeys_length, E, app_length. lia. Qed.
Lemma grows_same D D' : grows D D' -> length D' = length D -> dkeys D' = dkeys D.
Proof. intros [m E] L. rewrite <- !dkeys_length, E, app_length in L. destruct m; [rewrite E, app_nil_r; reflexivity|cbn in L; lia]. Qed.
Lemma nodup_aw U d pc : NoDup (dkeys d) -> NoDup (dkeys (fst (aw_step U d pc))).
Proof. intros H. destruct pc as [[|f fs]|f s rest|f s rest|f s rest|r]; cbn [aw_step fst]; try exact H; apply (NoDup_dset _ str_eqb_ok), H. Qed.

Section Mixed.
  Context (U : unicode).
  Lemma mx_step_inl d w : mx_step U d (inl w) = (fst (aw_step U d w), inl (snd (aw_step U d w))).
  Proof. cbn. destruct (aw_step U d w). reflexivity. Qed.
  Lemma grows_at (st : dictionary * list (aw_pc + rd_pc)) i : grows (fst st) (fst (step_at (mx_step U) st i)).
  Proof.
    unfold step_at. destruct (nth_error (snd st) i) as [[w|r]|]; [|apply grows_refl|apply grows_refl]. rewrite mx_step_inl. cbn [fst]. apply grows_aw.
  Qed.
  Lemma grows_run (st : dictionary * list (aw_pc + rd_pc)) sched : grows (fst st) (fst (mx_run U st sched)).
  Proof.
    apply (run_invariant (mx_step U) (fun s => grows (fst st) (fst s))); [|apply grows_refl]. intros s i H. eapply grows_trans; [exact H|apply grows_at].
  Qed.
  Lemma nodup_run (st : dictionary * list (aw_pc + rd_pc)) sched : NoDup (dkeys (fst st)) -> NoDup (dkeys (fst (mx_run U st sched))).
  Proof.
    apply (run_invariant (mx_step U) (fun s => NoDup (dkeys (fst s)))). intros s i H. unfold step_at. destruct (nth_error (snd s) i) as [[w|r]|]; [|exact H|exact H].
    rewrite mx_step_inl. cbn [fst]. apply nodup_aw, H.
  Qed.

  (** the dictionaries a thread meets when it moves *)
  Fixpoint visits (st : dictionary * list (aw_pc + rd_pc)) (j : nat) (sched : list nat) : list dictionary :=
    match sched with [] => [] | i :: rest => (if Nat.eqb i j then [fst st] else []) ++ visits (step_at (mx_step U) st i) j rest end.
  Lemma reader_fold j sched : forall st r, nth_error (snd st) j = Some (inr r) ->
    nth_error (snd (mx_run U st sched)) j = Some (inr (fold_left (fun r D => rd_step U D r) (visits st j sched) r)).
  Proof.
    induction sched as [|i sched IH]; intros st r H; [exact H|]. cbn [mx_run run_threads fold_left visits]. change (fold_left (step_at (mx_step U)) sched) with (fun s => mx_run U s sched). cbv beta.
    destruct (Nat.eqb_spec i j) as [->|N]; cbn [app fold_left]; apply IH; unfold step_at.
    - rewrite H. cbn [mx_step snd fst]. rewrite (set_nth_at _ _ _ _ _ H), Nat.eqb_refl. reflexivity.
    - destruct (nth_error (snd st) i) as [pc|] eqn:E; [|exact H]. destruct (mx_step U (fst st) pc) as [d' pc']. cbn [snd]. rewrite (set_nth_at _ _ _ _ _ E).
      destruct (Nat.eqb_spec j i); [congruence|exact H].
  Qed.
  Lemma visits_moment j sched : forall st D, In D (visits st j sched) -> exists s1 s2, sched = s1 ++ s2 /\ D = fst (mx_run U st s1).
  Proof.
    induction sched as [|i sched IH]; intros st D H; [destruct H|]. cbn [visits] in H. apply in_app_iff in H as [H|H].
    - destruct (Nat.eqb i j); [|destruct H]. destruct H as [<-|[]]. exists [], (i :: sched). auto.
    - destruct (IH _ _ H) as (s1 & s2 & -> & ->). exists (i :: s1), s2. auto.
  Qed.
  Lemma visits_from j sched : forall st D, In D (visits st j sched) -> grows (fst st) D /\ grows D (fst (mx_run U st sched)).
  Proof.
    intros st D H. destruct (visits_moment j sched st D H) as (s1 & s2 & -> & ->). split; [apply grows_run|]. unfold mx_run. rewrite run_app. apply (grows_run (run_threads (mx_step U) st s1)).
  Qed.
  Lemma visits_sorted j sched : forall st l1 A l2 B l3, visits st j sched = l1 ++ A :: l2 ++ B :: l3 -> grows A B.
  Proof.
    induction sched as [|i sched IH]; intros st l1 A l2 B l3 E; [destruct l1; discriminate|]. cbn [visits] in E. destruct (Nat.eqb i j); [|cbn [app] in E; eapply IH; exact E].
    cbn [app] in E. destruct l1 as [|x l1]; cbn [app] in E; injection E as E1 E; [|eapply IH; exact E]. rewrite <- E1. eapply grows_trans; [apply (grows_at st i)|].
    eapply visits_from. rewrite E. apply in_app_iff. right. left. reflexivity.
  Qed.
  (** a thread that has not moved *)
  Lemma visits_app j s1 s2 : forall st, visits st j (s1 ++ s2) = visits st j s1 ++ visits (mx_run U st s1) j s2.
  Proof. induction s1 as [|i s1 IH]; intros st; [reflexivity|]. cbn [app visits]. rewrite IH, app_assoc. reflexivity. Qed.
  Lemma visits_count j sched : forall st, length (visits st j sched) = count_runs j sched.
  Proof.
    unfold count_runs. induction sched as [|i sched IH]; intros st; [reflexivity|]. cbn [visits count_occ]. rewrite app_length, IH. destruct (Nat.eq_dec i j) as [->|N].
    - rewrite Nat.eqb_refl. reflexivity.
    - apply Nat.eqb_neq in N. rewrite N. reflexivity.
  Qed.
  Lemma visits_none j sched st : count_runs j sched = 0 -> visits st j sched = [].
  Proof. intros H. rewrite <- (visits_count j sched st) in H. destruct (visits st j sched); [reflexivity|discriminate]. Qed.

  (** the writers alone *)
  Lemma set_map_inl i w (ws : list aw_pc) (rs : list rd_pc) : i < length ws ->
    list_set i (inl w : aw_pc + rd_pc) (map inl ws ++ map inr rs) = map inl (list_set i w ws) ++ map inr rs.
  Proof.
    revert i. induction ws as [|x ws IH]; intros i H; [cbn in H; lia|]. destruct i as [|i]; [reflexivity|]. cbn [map app list_set length] in *. f_equal. apply IH. lia.
  Qed.
  Lemma set_map_inr i r (ws : list aw_pc) (rs : list rd_pc) :
    list_set (length ws + i) (inr r : aw_pc + rd_pc) (map inl ws ++ map inr rs) = map inl ws ++ map inr (list_set i r rs).
  Proof.
    induction ws as [|x ws IH]; [|cbn [length map app list_set Nat.add]; f_equal; exact IH]. cbn [length Nat.add map app]. revert i. induction rs as [|y rs IH]; intros i; [destruct i; reflexivity|].
    destruct i; [reflexivity|]. cbn. f_equal. apply IH.
  Qed.
  Lemma writers_only n sched : forall d (ws : list aw_pc) (rs : list rd_pc), length ws = n -> exists rs',
    let w := aw_run U (d, ws) (filter (fun i => i <? n) sched) in
    mx_run U (d, map inl ws ++ map inr rs) sched = (fst w, map inl (snd w) ++ map inr rs').
  Proof.
    induction sched as [|i sched IH]; intros d ws rs H; [exists rs; reflexivity|]. cbn [mx_run run_threads fold_left filter]. change (fold_left (step_at (mx_step U)) sched) with (fun s => mx_run U s sched). cbv beta.
    destruct (i <? n) eqn:E.
    - apply Nat.ltb_lt in E. cbn [aw_run run_threads fold_left]. 
      change (fold_left (step_at (aw_step U)) (filter (fun i => i <? n) sched)) with (fun s => aw_run U s (filter (fun i => i <? n) sched)). cbv beta.
      unfold step_at at 1. cbn [fst snd]. rewrite nth_error_app1 by (rewrite map_length; lia). rewrite nth_error_map.
      assert (S1 : step_at (aw_step U) (d, ws) i = match nth_error ws i with None => (d, ws) | Some pc => let (s', pc') := aw_step U d pc in (s', list_set i pc' ws) end) by reflexivity. rewrite !S1. clear S1.
      destruct (nth_error ws i) as [pc|] eqn:Ei; [|apply nth_error_None in Ei; lia]. cbn [option_map]. rewrite mx_step_inl. destruct (aw_step U d pc) as [d' pc']. cbn [fst snd].
      rewrite set_map_inl by lia. apply IH. rewrite list_set_length. exact H.
    - apply Nat.ltb_ge in E. unfold step_at at 1. cbn [fst snd]. rewrite nth_error_app2 by (rewrite map_length; lia). rewrite map_length, nth_error_map.
      destruct (nth_error rs (i - length ws)) as [r|] eqn:Er; cbn [option_map]; [|apply IH, H]. cbn [mx_step]. replace i with (length ws + (i - length ws)) by lia. rewrite set_map_inr. apply IH, H.
  Qed.
End Mixed.
