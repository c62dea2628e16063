(** * PropLexReaders: C73 (readers of a lexicon beside concurrent add_template calls) *)
From Coq Require Import Lia Permutation.
From Verif Require Import PyBase PyBaseFacts Words Lexicon Concurrent LexReaders SpecLists SpecConcurrent SpecLexReaders ConcurrentFacts LexThreadFacts LexReaderFacts PropLexicon PropLexiconThreads.

Section C73.
  Context {K T R : Type} (keqb : K -> K -> bool) (reqb : R -> R -> bool) (keqb_ok : eqb_ok keqb).
  Notation call := (lx_call K T R).
  Notation after_calls := (lex_after (T := T) (R := R) keqb).
  Notation run := (reading_templates (T := T) (R := R) keqb reqb).
  Notation lexicon_at := (lexicon_at (T := T) (R := R) keqb reqb).
  Notation answered := (reader_answered (T := T) (R := R) keqb reqb).
  Notation returned := (call_returned (T := T) (R := R) keqb reqb).
  Notation answer := (sequential_answer (T := T) (R := R) keqb reqb).
  Notation writers_of calls := (filter (fun i => i <? length calls)).

  (** readers do not disturb the writers: objects and add_template threads are as in a run of the latter alone (C70) *)
  Theorem C73_writers_undisturbed : forall l calls readers schedule,
    let alone := adding_templates keqb l calls (filter (fun i => i <? length calls) schedule) in
    fst (run l calls readers schedule) = fst alone /\
    forall i, i < length calls -> nth_error (snd (run l calls readers schedule)) i = option_map inl (nth_error (snd alone) i).
  Proof.
    intros l calls readers schedule alone. destruct (mixed_writers_only (at_step keqb) (lr_step keqb reqb) (length calls) schedule (lx_of l) (map AT_test calls) (map (fun r => lr_start (query r)) readers)) as (rs & E).
    { apply map_length. } cbv zeta in E. rewrite !map_map in E. change (run_threads (mixed (at_step keqb) (lr_step keqb reqb))) with (lm_run (T := T) keqb reqb) in E. unfold reading_templates. rewrite E. split; [reflexivity|].
    intros i H. cbn [snd]. assert (L : length (snd alone) = length calls).
    { unfold alone, adding_templates, at_run. apply (run_invariant (at_step keqb) (fun st => length (snd st) = length calls)); [|cbn; apply map_length]. intros st j Hl. unfold step_at. destruct (nth_error (snd st) j) as [pc|]; [|exact Hl].
      destruct (at_step keqb (fst st) pc). cbn [snd]. rewrite list_set_length. exact Hl. }
    change (run_threads (at_step keqb) (lx_of l, map AT_test calls) (filter (fun i => i <? length calls) schedule)) with alone. rewrite nth_error_app1 by (rewrite map_length; lia). apply nth_error_map.
  Qed.
  Lemma at_alone l calls readers schedule : lexicon_at l calls readers schedule = seen keqb l calls (writers_of calls schedule).
  Proof. unfold SpecLexReaders.lexicon_at, seen. rewrite (proj1 (C73_writers_undisturbed l calls readers schedule)). reflexivity. Qed.
  Lemma returned_alone l calls readers schedule i : i < length calls -> returned l calls readers schedule i <-> ended keqb l calls (writers_of calls schedule) i (Ok tt).
  Proof.
    intros H. unfold call_returned, ended. rewrite (proj2 (C73_writers_undisturbed l calls readers schedule) i H). split; intros [c Hc]; exists c.
    - destruct (nth_error (snd (adding_templates keqb l calls _)) i); [|discriminate]. cbn in Hc. congruence.
    - rewrite Hc. reflexivity.
  Qed.

  Lemma start_at l calls readers j r : nth_error readers j = Some r -> nth_error (snd (run l calls readers [])) (length calls + j) = Some (inr (lr_start (query r))).
  Proof. intros H. cbn [reading_templates lm_run run_threads fold_left snd]. rewrite nth_error_app2 by (rewrite map_length; lia). rewrite map_length. replace (length calls + j - length calls) with j by lia. rewrite nth_error_map, H. reflexivity. Qed.
  Definition is_answer (pc : at_pc K T R + lr_pc K T R) : bool := match pc with inr (LR_answer _) => true | _ => false end.

  (** the moment a reader gets its answer, with the invariant there *)
  Lemma last_move l calls readers schedule j r a : nth_error readers j = Some r -> answered l calls readers schedule j a ->
    exists s1 s2 owners logs ws rs p, schedule = s1 ++ (length calls + j) :: s2 /\ lr_inv keqb reqb l calls readers (run l calls readers s1) owners logs ws rs /\
      sound keqb reqb l calls owners (fst (run l calls readers s1)) (query r) p /\ (forall b, p <> LR_answer b) /\ lr_step keqb reqb (fst (run l calls readers s1)) p = LR_answer a.
  Proof.
    intros Hr H. unfold reader_answered, reading_templates, lm_run in H.
    assert (Hd : forall s pc, is_answer pc = true -> snd (lm_step keqb reqb s pc) = pc) by (intros s [w|[]] Q; try discriminate; reflexivity).
    assert (N0 : is_answer (inr (lr_start (T := T) (query r))) = false) by (unfold lr_start; destruct (q_random (query r)); reflexivity).
    destruct (transition _ is_answer Hd _ _ _ (start_at l calls readers j r Hr) N0 schedule _ H eq_refl) as (s1 & s2 & pc1 & E1 & E2 & E3 & E4).
    fold (lm_run (T := T) keqb reqb) in E2, E4. change (lm_run keqb reqb _ s1) with (run l calls readers s1) in E2, E4.
    destruct (lr_inv_run keqb reqb keqb_ok l calls readers s1) as (owners & logs & ws & rs & HI). destruct (HI) as [Sp Ln At So]. rewrite Sp, nth_error_app2 in E2 by (rewrite map_length; lia).
    rewrite map_length, Ln in E2. replace (length calls + j - length calls) with j in E2 by lia. rewrite nth_error_map in E2. destruct (nth_error rs j) as [p|] eqn:Ep; [|discriminate]. injection E2 as <-.
    exists s1, s2, owners, logs, ws, rs, p. split; [exact E1|]. split; [exact HI|]. split; [eapply Forall2_at in So; eassumption|]. split; [intros b ->; discriminate|]. cbn [lm_step snd] in E4. congruence.
  Qed.

  (** LINEARISABILITY.  If the key was known before, or one call only has it, the answer is the one that the sequential
      function gives for the lexicon at one moment: that of a move of the reader, so between the start and the end of its call *)
  Theorem C73_linearisable : forall l calls readers schedule j r a, nth_error readers j = Some r -> answered l calls readers schedule j a ->
    has_key keqb l (asks_for r) = true \/ lone (asks_for r) calls ->
    exists s1 s2, schedule = s1 ++ (length calls + j) :: s2 /\ a = answer (lexicon_at l calls readers s1) r.
  Proof.
    intros l calls readers schedule j r a Hr Ha Hs. destruct (last_move _ _ _ _ _ _ _ Hr Ha) as (s1 & s2 & owners & logs & ws & rs & p & E & [Sp Ln At So] & H1 & H2 & H3). exists s1, s2. split; [exact E|].
    eapply last_step_safe; try eassumption.
  Qed.

  Definition as_answer (q : lr_query K R) (known : bool) (ents : list (T * list R)) : lr_answer T :=
    match q_random q with
    | None => Several (candidates reqb q ents)
    | Some rnd => Single (if negb known then Err UnknownLexiconKeyError else match candidates reqb q ents with [] => Err NoTemplatesWithSpecifiedRestrictions | _ => choice rnd (candidates reqb q ents) end)
    end.
  Lemma answer_as l r : answer l r = as_answer (query r) (has_key keqb l (asks_for r)) (entries keqb l (asks_for r)).
  Proof. rewrite sequential_answer_eq. cbv zeta. rewrite query_key. reflexivity. Qed.
  Lemma answer_from h cs r known : (forall c, In c cs -> fst (fst c) = asks_for r) -> (has_key keqb (after_calls h) (asks_for r) = true -> known = true) -> (cs <> [] -> known = true) ->
    let a := as_answer (query r) known (entries keqb (after_calls (h ++ cs)) (asks_for r)) in
    a = answer (after_calls (h ++ cs)) r \/ a = Single (Err NoTemplatesWithSpecifiedRestrictions) /\ cs = [].
  Proof.
    intros Hk K1 K2 a. unfold a. rewrite answer_as. set (q := query r). destruct (has_key keqb (after_calls (h ++ cs)) (asks_for r)) eqn:E.
    - left. enough (known = true) as -> by reflexivity. apply (C24_has_key keqb keqb_ok) in E as (c & Hc & Ec). apply in_app_iff in Hc as [Hc|Hc].
      + apply K1. apply (C24_has_key keqb keqb_ok). exists c. auto.
      + apply K2. intros ->. destruct Hc.
    - assert (Ee : entries keqb (after_calls (h ++ cs)) (asks_for r) = []) by (unfold entries, has_key, dmem in *; destruct (dget keqb (asks_for r) (after_calls (h ++ cs))); [discriminate|reflexivity]). rewrite Ee.
      assert (Ec : candidates (T := T) reqb q [] = []) by (unfold candidates; destruct (q_nearest q); reflexivity).
      assert (Es : cs = []). { destruct cs as [|c cs]; [reflexivity|]. exfalso. assert (Q : has_key keqb (after_calls (h ++ c :: cs)) (asks_for r) = true); [|congruence]. apply (C24_has_key keqb keqb_ok). exists c. split; [apply in_app_iff; right; left; reflexivity|apply Hk; left; reflexivity]. }
      unfold as_answer. rewrite Ec. destruct (q_random q) as [rnd|]; [|left; reflexivity]. destruct known; cbn [negb]; [right; auto|left; reflexivity].
  Qed.
  Lemma log_pairs (log : list (nat * call)) (P : nat -> call -> Prop) : (forall i c, In (i, c) log -> P i c) -> Forall2 P (map fst log) (map snd log).
  Proof. induction log as [|[i c] log IH]; intros H; constructor; [apply H; left; reflexivity|apply IH; intros j d Hj; apply H; right; exact Hj]. Qed.

  (** for any key: the answer is the one for the lexicon after the initial calls and then some of the calls for the key that had
      returned when the reader ended, each taken once; or, if there are none, the error that there is no template *)
  Theorem C73_some_of_the_calls : forall h calls readers schedule j r a, nth_error readers j = Some r -> answered (after_calls h) calls readers schedule j a ->
    exists s1 s2 ids cs, schedule = s1 ++ (length calls + j) :: s2 /\ NoDup ids /\
      Forall2 (fun i c => nth_error calls i = Some c /\ fst (fst c) = asks_for r /\ returned (after_calls h) calls readers s1 i) ids cs /\
      (a = answer (after_calls (h ++ cs)) r \/ a = Single (Err NoTemplatesWithSpecifiedRestrictions) /\ cs = []).
  Proof.
    intros h calls readers schedule j r a Hr Ha. destruct (last_move _ _ _ _ _ _ _ Hr Ha) as (s1 & s2 & owners & logs & ws & rs & p & E & HI & H1 & H2 & H3). exists s1, s2.
    destruct (HI) as [Sp Ln At So]. set (s := fst (run (after_calls h) calls readers s1)) in *.
    assert (Case1 : a = answer (lx_view s) r -> exists ids cs, schedule = s1 ++ (length calls + j) :: s2 /\ NoDup ids /\
      Forall2 (fun i c => nth_error calls i = Some c /\ fst (fst c) = asks_for r /\ returned (after_calls h) calls readers s1 i) ids cs /\
      (a = answer (after_calls (h ++ cs)) r \/ a = Single (Err NoTemplatesWithSpecifiedRestrictions) /\ cs = [])).
    { intros ->. unfold s. change (lx_view (fst (run (after_calls h) calls readers s1))) with (lexicon_at (after_calls h) calls readers s1). rewrite at_alone.
      destruct (explained keqb keqb_ok h calls (writers_of calls s1) (asks_for r)) as (log & L1 & L2 & L3 & _). exists (map fst log), (map snd log). split; [exact E|]. split; [exact L1|]. split.
      - apply log_pairs. intros i c Hi. destruct (L2 i c Hi) as (Q1 & Q2 & Q3). split; [exact Q1|]. split; [exact Q2|]. apply returned_alone; [apply nth_error_Some; congruence|exact Q3].
      - rewrite answer_as. rewrite L3. apply answer_from.
        + intros c Hc. apply in_map_iff in Hc as ([i d] & <- & Hc). apply (L2 _ _ Hc).
        + intros Q. change (writers_of calls s1) with ([] ++ writers_of calls s1). apply (C70_never_forgets_a_key keqb keqb_ok). change (has_key keqb (lx_view (lx_of (after_calls h))) (asks_for r) = true). rewrite view_of. exact Q.
        + intros Q. rewrite (entries_after keqb keqb_ok) in L3 by (intros c Hc; apply in_map_iff in Hc as ([i d] & <- & Hc); apply (L2 _ _ Hc)).
          unfold has_key, dmem. unfold entries in L3 at 1. destruct (dget keqb (asks_for r) (seen keqb (after_calls h) calls (writers_of calls s1))); [reflexivity|]. exfalso.
          destruct (map snd log); [apply Q; reflexivity|]. symmetry in L3. apply app_eq_nil in L3 as [_ L3]. discriminate. }
    destruct (last_step keqb reqb _ _ _ _ _ _ _ _ _ At H1 H2 H3) as [A|(n & L & A)]; [apply Case1, A|]. destruct L as (L1 & L2 & L3 & L4).
    assert (A' : a = as_answer (query r) true (nth n (lx_lists s) [])) by exact A. clear A.
    destruct (dmem keqb (asks_for r) (after_calls h)) eqn:Eh.
    - apply Case1. rewrite answer_as, has_key_view, L2, entries_view, (L4 (or_introl Eh)). exact A'.
    - assert (Lg : forall i c, In (i, c) (logs n) -> nth_error calls i = Some c /\ fst (fst c) = asks_for r /\ returned (after_calls h) calls readers s1 i).
      { intros i c Hi. destruct (ti_logs _ _ _ _ _ _ At n i c Hi) as [Q1 Q2]. pose proof (ti_call _ _ _ _ _ _ At _ _ Q1) as Q3. cbn [pc_call snd] in Q1, Q3. split; [exact Q3|]. split; [change (lc_key c = asks_for r); congruence|]. exists c. rewrite Sp, nth_error_app1 by (rewrite map_length, Ln; apply nth_error_Some; congruence).
        rewrite nth_error_map, Q1. reflexivity. }
      exists (map fst (logs n)), (map snd (logs n)). split; [exact E|]. split; [apply (ti_nodup _ _ _ _ _ _ At)|]. split; [apply log_pairs, Lg|].
      assert (Ec : nth n (lx_lists s) [] = entries keqb (after_calls (h ++ map snd (logs n))) (asks_for r)).
      { pose proof (ti_content _ _ _ _ _ _ At n) as C. cbn [fst] in C. rewrite C. rewrite (entries_after keqb keqb_ok) by (intros c Hc; apply in_map_iff in Hc as ([i d] & <- & Hc); apply (Lg _ _ Hc)). f_equal.
        - unfold base. rewrite nth_overflow by (rewrite map_length; apply L3; reflexivity). unfold entries. unfold dmem in Eh. destruct (dget keqb (asks_for r) (after_calls h)); [discriminate|reflexivity].
        - rewrite map_map. reflexivity. }
      rewrite A', Ec. apply answer_from; auto. intros c Hc. apply in_map_iff in Hc as ([i d] & <- & Hc). apply (Lg _ _ Hc).
  Qed.

  (** a call that has returned before the reader starts is seen by it: for such keys nothing is missed *)
  Theorem C73_sees_returned_calls : forall h calls readers s1 s2 j key restrictions templates i c,
    nth_error readers j = Some (GetTemplates key restrictions) -> answered (after_calls h) calls readers (s1 ++ s2) j (Several templates) ->
    has_key keqb (after_calls h) key = true \/ lone key calls ->
    moves (length calls + j) s1 = 0 -> nth_error calls i = Some c -> fst (fst c) = key -> returned (after_calls h) calls readers s1 i ->
    issubset reqb (snd c) restrictions = true -> In (snd (fst c)) templates.
  Proof.
    intros h calls readers s1 s2 j key restrictions ts i c Hr Ha Hs Hm Hi Hk Hret Hsub. destruct (C73_linearisable _ _ _ _ _ _ _ Hr Ha Hs) as (a & b & E & A). cbn [sequential_answer] in A. injection A as ->.
    assert (P : exists more, a = s1 ++ more).
    { clear - E Hm. revert a E. induction s1 as [|x s1 IH]; intros a E; [exists a; reflexivity|]. cbn [app] in E. unfold moves in Hm. cbn [count_occ] in Hm. destruct (Nat.eq_dec x (length calls + j)); [discriminate|].
      destruct a as [|y a]; cbn [app] in E; [injection E as E _; congruence|]. injection E as -> E. destruct (IH Hm a E) as [m ->]. exists m. reflexivity. }
    destruct P as [more ->]. rewrite at_alone, filter_app. assert (Li : i < length calls) by (apply nth_error_Some; congruence). apply returned_alone in Hret; [|exact Li].
    destruct (explained keqb keqb_ok h calls (writers_of calls s1 ++ writers_of calls more) key) as (log & L1 & L2 & L3 & L4).
    assert (Hin : In (i, c) log). { apply (L4 Hs i c Hi Hk). destruct Hret as [d Hd]. exists d. unfold adding_templates, at_run. rewrite run_app. revert Hd. unfold adding_templates, at_run. generalize (run_threads (at_step keqb) (lx_of (after_calls h), map AT_test calls) (writers_of calls s1)). intros st Hd.
      apply (run_invariant (at_step keqb) (fun st => nth_error (snd st) i = Some (AT_done d (Ok tt)))); [|exact Hd]. intros st' j' Hj. unfold step_at. destruct (nth_error (snd st') j') as [pc|] eqn:Ep; [|exact Hj].
      destruct (at_step keqb (fst st') pc) as [x y] eqn:Es. cbn [snd]. rewrite (set_nth_at _ _ _ _ _ Ep). destruct (Nat.eqb_spec i j') as [->|]; [|exact Hj]. rewrite Hj in Ep. injection Ep as <-. cbn in Es. congruence. }
    unfold get_templates. rewrite L3, (entries_after keqb keqb_ok) by (intros d Hd; apply in_map_iff in Hd as ([i' d'] & <- & Hd); apply (L2 _ _ Hd)).
    apply in_map_iff. exists (lc_item c). split; [reflexivity|]. apply filter_In. split; [|exact Hsub]. apply in_app_iff. right. rewrite map_map. apply in_map_iff. exists (i, c). auto.
  Qed.

  (** every reader ends: at most one step for each template of the key, and three more *)
  Lemma log_bound h calls readers s1 owners logs ws rs n : lr_inv keqb reqb (after_calls h) calls readers (run (after_calls h) calls readers s1) owners logs ws rs -> length (logs n) <= length calls.
  Proof.
    intros [Sp Ln At So]. rewrite <- (map_length fst), <- (seq_length (length calls) 0). apply NoDup_incl_length; [apply (ti_nodup _ _ _ _ _ _ At)|]. intros i Hi. apply in_map_iff in Hi as ([i' c] & <- & Hi).
    destruct (ti_logs _ _ _ _ _ _ At n i' c Hi) as [Q1 Q2]. pose proof (ti_call _ _ _ _ _ _ At _ _ Q1) as Q3. apply in_seq. cbn. enough (i' < length calls) by lia. apply nth_error_Some. congruence.
  Qed.
  Definition age (pc : lr_pc K T R) : nat :=
    let first q := match q_random q with None => 0 | Some _ => 1 end in
    match pc with LR_test _ => 0 | LR_get q => first q | LR_templates q _ n _ | LR_nearest q _ n _ => first q + 1 + n | LR_answer _ => 0 end.
  Lemma age_moves l calls readers j r : nth_error readers j = Some r -> forall schedule, exists pc, nth_error (snd (run l calls readers schedule)) (length calls + j) = Some (inr pc) /\
    (forall q, pc = LR_test q -> q_random q <> None) /\ ((forall a, pc <> LR_answer a) -> age pc = moves (length calls + j) schedule).
  Proof.
    intros Hr. induction schedule as [|i schedule IH] using rev_ind.
    - exists (lr_start (query r)). split; [apply start_at, Hr|]. unfold lr_start. destruct (q_random (query r)) eqn:E; (split; [congruence|]); cbn; rewrite ?E; auto.
    - destruct IH as (pc & H1 & H2 & H3). unfold reading_templates, lm_run in *. rewrite run_app.
      set (st := run_threads (lm_step keqb reqb) _ schedule) in *. clearbody st. cbn [run_threads fold_left].
      unfold moves. rewrite count_occ_app. fold (moves (length calls + j) schedule). cbn [count_occ]. unfold step_at. destruct (Nat.eq_dec i (length calls + j)) as [->|N].
      + rewrite H1. cbn [lm_step snd]. rewrite (set_nth_at _ _ _ _ _ H1), Nat.eqb_refl. eexists. split; [reflexivity|].
        set (s := fst st). clearbody s. split.
        * intros q Hq. destruct pc as [q'|q'|q' n pos acc|q' n pos acc|b]; cbn [lr_step] in Hq.
          -- destruct (negb (dmem keqb (q_key q') (lx_data s))); discriminate.
          -- destruct (dget keqb (q_key q') (lx_data s)); [destruct (q_nearest q')|]; discriminate.
          -- destruct (nth_error (nth n (lx_lists s) []) pos); discriminate.
          -- destruct (nth_error (nth n (lx_lists s) []) pos); discriminate.
          -- discriminate.
        * intros Hn. destruct pc as [q'|q'|q' n pos acc|q' n pos acc|b]; cbn [lr_step] in *; [| | | |exfalso; eapply Hn; reflexivity]; rewrite <- H3 by discriminate.
          -- destruct (negb (dmem keqb (q_key q') (lx_data s))); [exfalso; eapply Hn; reflexivity|]. cbn. specialize (H2 q' eq_refl). destruct (q_random q'); [reflexivity|congruence].
          -- destruct (dget keqb (q_key q') (lx_data s)); [|exfalso; eapply Hn; reflexivity]. destruct (q_nearest q'); cbn; lia.
          -- destruct (nth_error (nth n (lx_lists s) []) pos); [|exfalso; eapply Hn; reflexivity]. cbn. lia.
          -- destruct (nth_error (nth n (lx_lists s) []) pos); [|exfalso; eapply Hn; reflexivity]. cbn. lia.
      + exists pc. split; [|split; [exact H2|intros Hn; rewrite (H3 Hn); lia]]. destruct (nth_error (snd st) i) as [q|] eqn:Ei; [|exact H1].
        destruct (lm_step keqb reqb (fst st) q). cbn [snd]. rewrite (set_nth_at _ _ _ _ _ Ei). destruct (Nat.eqb_spec (length calls + j) i); [congruence|exact H1].
  Qed.
  Theorem C73_progress : forall h calls readers schedule j r, nth_error readers j = Some r ->
    2 + length (entries keqb (after_calls h) (asks_for r)) + length calls < moves (length calls + j) schedule -> exists a, answered (after_calls h) calls readers schedule j a.
  Proof.
    intros h calls readers schedule j r Hr Hm. destruct (age_moves (after_calls h) calls readers j r Hr schedule) as (pc & H1 & _ & H3).
    destruct (lr_inv_run keqb reqb keqb_ok (after_calls h) calls readers schedule) as (owners & logs & ws & rs & HI). pose proof (fun n => log_bound h calls readers schedule owners logs ws rs n HI) as LB. destruct (HI) as [Sp Ln At So].
    set (s := fst (run (after_calls h) calls readers schedule)) in *.
    assert (S1 : sound keqb reqb (after_calls h) calls owners s (query r) pc).
    { pose proof H1 as H1'. rewrite Sp, nth_error_app2 in H1' by (rewrite map_length; lia). rewrite map_length, Ln in H1'. replace (length calls + j - length calls) with j in H1' by lia. rewrite nth_error_map in H1'.
      destruct (nth_error rs j) as [p|] eqn:Ep; [|discriminate]. injection H1' as ->. eapply Forall2_at in So; eassumption. }
    assert (Bound : forall n pre more, located keqb (after_calls h) calls owners s (q_key (query r)) n -> nth n (lx_lists s) [] = pre ++ more -> length pre <= length (entries keqb (after_calls h) (asks_for r)) + length calls).
    { intros n pre more (L1 & L2 & L3 & L4) Ep. rewrite query_key in *. pose proof (ti_content _ _ _ _ _ _ At n) as C. cbn [fst] in C. rewrite Ep in C. apply (f_equal (@length _)) in C. rewrite !app_length, map_length in C.
      specialize (LB n). enough (length (base (after_calls h) n) <= length (entries keqb (after_calls h) (asks_for r))) by lia. destruct (dmem keqb (asks_for r) (after_calls h)) eqn:Eh.
      - specialize (L4 (or_introl Eh)). destruct (ti_first _ _ _ _ _ _ At _ Eh) as [F _]. cbn [fst] in F. rewrite L4 in F. rewrite <- (view_of (after_calls h)) at 2. rewrite entries_view, <- F. reflexivity.
      - unfold base. rewrite nth_overflow by (rewrite map_length; apply L3; reflexivity). cbn. lia. }
    assert (First : forall q : lr_query K R, match q_random q with None => 0 | Some _ => 1 end <= 1) by (intros q; destruct (q_random q); lia).
    destruct pc as [q'|q'|q' n pos acc|q' n pos acc|b]; [| | | |exists b; exact H1]; exfalso; specialize (H3 ltac:(discriminate)); cbn [age] in H3; [lia|specialize (First q'); lia| |];
      destruct S1 as (-> & _ & L & pre & more & E & -> & _); specialize (Bound _ _ _ L E); specialize (First (query r)); lia.
  Qed.
End C73.

(** one reader starts before the call for a known key returns and meets its template in the middle of the iteration; another
    asks for a key that is only being added; a third one for a template at random *)
Example C73_case : let h := [(1, 9, [])] in let calls := [(1, 10, []); (2, 20, [5])] in
  let readers := [GetTemplates 1 []; GetNearest 2 [5]; GetRandom 3 2 [5]] in
  let schedule := [0; 2; 2; 3; 0; 0; 2; 2; 1; 1; 4; 1; 1; 4; 4; 4] in let at_moment := lexicon_at Nat.eqb Nat.eqb (lex_after Nat.eqb h) calls readers in
  let answered := reader_answered Nat.eqb Nat.eqb (lex_after Nat.eqb h) calls readers schedule in
  eqb_ok Nat.eqb /\ has_key Nat.eqb (lex_after Nat.eqb h) (asks_for (GetTemplates 1 (@nil nat))) = true /\ lone (asks_for (GetNearest 2 [5])) calls /\
  answered 0 (Several [9; 10]) /\ get_templates Nat.eqb Nat.eqb (at_moment [0; 2; 2; 3]) 1 [] = [9] /\ answered 1 (Several []) /\ answered 2 (Single (Ok 20)).
Proof.
  cbv zeta. split; [intros a b; apply Nat.eqb_eq|]. split; [reflexivity|]. split; [|vm_compute; repeat split].
  intros [|[|i]] [|[|j]] c c' Hc Hc' E E'; cbn in Hc, Hc'; try (destruct i; discriminate); try (destruct j; discriminate); try reflexivity;
    injection Hc as <-; injection Hc' as <-; cbn in E, E'; discriminate.
Qed.

(** FINDING: the race of two first calls for a key, met by a reader: the answer is that of no moment of the run *)
Theorem C73_race_refuted : exists (calls : list (lx_call nat nat nat)) schedule,
  reader_answered Nat.eqb Nat.eqb [] calls [GetTemplates 1 []] schedule 0 (Several [10]) /\
  forall s1 s2, schedule = s1 ++ s2 -> get_templates Nat.eqb Nat.eqb (lexicon_at Nat.eqb Nat.eqb [] calls [GetTemplates 1 []] s1) 1 [] <> [10].
Proof.
  (* both calls find no key; call 0 creates the list, the reader takes it, call 1 replaces it, call 0 appends to the old one *)
  exists [(1, 10, []); (1, 20, [])], [0; 1; 0; 0; 2; 1; 0; 2; 2].
  split; [vm_compute; reflexivity|]. intros s1 s2 E.
  assert (L : In s1 (map (fun n => firstn n [0; 1; 0; 0; 2; 1; 0; 2; 2]) (seq 0 10))).
  { apply in_map_iff. exists (length s1). rewrite E, firstn_app, Nat.sub_diag, firstn_all, app_nil_r. split; [reflexivity|]. apply in_seq. apply (f_equal (@length nat)) in E. rewrite app_length in E. cbn in E. lia. }
  cbn in L. repeat (destruct L as [<-|L]; [vm_compute; discriminate|]). destruct L.
Qed.
