(** * LexReaderFacts: what a reader of a lexicon sees while templates are added *)
From Coq Require Import Lia.
From Verif Require Import PyBase PyBaseFacts Words Lexicon Concurrent LexReaders SpecLists SpecConcurrent SpecLexReaders ConcurrentFacts LexThreadFacts PropLexicon PropLexiconThreads.

(** the step with which a thread gets its answer *)
Lemma transition {S P} (step : S -> P -> S * P) (isdone : P -> bool) (Hd : forall s pc, isdone pc = true -> snd (step s pc) = pc) st j pc0 : nth_error (snd st) j = Some pc0 -> isdone pc0 = false ->
  forall sched pc, nth_error (snd (run_threads step st sched)) j = Some pc -> isdone pc = true ->
  exists s1 s2 pc1, sched = s1 ++ j :: s2 /\ nth_error (snd (run_threads step st s1)) j = Some pc1 /\ isdone pc1 = false /\ snd (step (fst (run_threads step st s1)) pc1) = pc.
Proof.
  intros H0 N0. induction sched as [|i sched IH] using rev_ind; intros pc H D; [cbn in H; congruence|]. rewrite run_app in H. cbn [run_threads fold_left] in H.
  change (fold_left (step_at step) sched st) with (run_threads step st sched) in H. unfold step_at in H. destruct (nth_error (snd (run_threads step st sched)) i) as [q|] eqn:Ei.
  - destruct (step (fst (run_threads step st sched)) q) as [s' q'] eqn:Es. cbn [snd] in H. rewrite (set_nth_at _ _ _ _ _ Ei) in H. destruct (Nat.eqb_spec j i) as [->|N].
    + injection H as ->. destruct (isdone q) eqn:Dq.
      * pose proof (Hd (fst (run_threads step st sched)) q Dq) as E. rewrite Es in E. cbn in E. subst q.
        destruct (IH _ Ei D) as (s1 & s2 & pc1 & -> & Q). exists s1, (s2 ++ [i]), pc1. rewrite <- app_assoc. auto.
      * exists sched, [], q. rewrite Es. auto.
    + destruct (IH _ H D) as (s1 & s2 & pc1 & -> & Q). exists s1, (s2 ++ [i]), pc1. rewrite <- app_assoc. auto.
  - destruct (IH _ H D) as (s1 & s2 & pc1 & -> & Q). exists s1, (s2 ++ [i]), pc1. rewrite <- app_assoc. auto.
Qed.

(** writers and readers *)
Section Mixed.
  Context {S W P : Type} (wstep : S -> W -> S * W) (rstep : S -> P -> P).
  Definition mixed (s : S) (pc : W + P) : S * (W + P) := match pc with inl w => let (s', w') := wstep s w in (s', inl w') | inr r => (s, inr (rstep s r)) end.
  Lemma mixed_inl s w : mixed s (inl w) = (fst (wstep s w), inl (snd (wstep s w))).
  Proof. cbn. destruct (wstep s w). reflexivity. Qed.
  Lemma mixed_set_inl i w (ws : list W) (rs : list P) : i < length ws -> list_set i (inl w) (map inl ws ++ map inr rs) = map inl (list_set i w ws) ++ map inr rs.
  Proof. revert i. induction ws as [|x ws IH]; intros i H; [cbn in H; lia|]. destruct i as [|i]; [reflexivity|]. cbn [map app list_set length] in *. f_equal. apply IH. lia. Qed.
  Lemma mixed_set_inr i r (ws : list W) (rs : list P) : list_set (length ws + i) (inr r) (map inl ws ++ map inr rs) = map inl ws ++ map inr (list_set i r rs).
  Proof.
    induction ws as [|x ws IH]; [|cbn [length map app list_set Nat.add]; f_equal; exact IH]. cbn [length Nat.add map app]. revert i. induction rs as [|y rs IH]; intros i; [destruct i; reflexivity|].
    destruct i; [reflexivity|]. cbn. f_equal. apply IH.
  Qed.
  (** one step of a mixed program: of a writer, of a reader, or of nobody *)
  Lemma mixed_step_at s (ws : list W) (rs : list P) i : 
    (exists w, nth_error ws i = Some w /\ step_at mixed (s, map inl ws ++ map inr rs) i = (fst (wstep s w), map inl (list_set i (snd (wstep s w)) ws) ++ map inr rs) /\
       step_at wstep (s, ws) i = (fst (wstep s w), list_set i (snd (wstep s w)) ws)) \/
    (exists j r, i = length ws + j /\ nth_error rs j = Some r /\ step_at mixed (s, map inl ws ++ map inr rs) i = (s, map inl ws ++ map inr (list_set j (rstep s r) rs))) \/
    (length ws <= i /\ step_at mixed (s, map inl ws ++ map inr rs) i = (s, map inl ws ++ map inr rs)).
  Proof.
    destruct (Nat.lt_ge_cases i (length ws)) as [H|H].
    - left. destruct (nth_error ws i) as [w|] eqn:E; [|apply nth_error_None in E; lia]. exists w. split; [reflexivity|]. unfold step_at. cbn [fst snd].
      rewrite nth_error_app1 by (rewrite map_length; lia). rewrite nth_error_map, E. cbn [option_map]. rewrite mixed_inl. destruct (wstep s w) as [s' w']. cbn [fst snd]. rewrite mixed_set_inl by lia. auto.
    - right. unfold step_at. cbn [fst snd]. rewrite nth_error_app2 by (rewrite map_length; lia). rewrite map_length, nth_error_map. destruct (nth_error rs (i - length ws)) as [r|] eqn:E; cbn [option_map].
      + left. exists (i - length ws), r. split; [lia|]. split; [exact E|]. cbn [mixed]. replace i with (length ws + (i - length ws)) at 1 by lia. rewrite mixed_set_inr. reflexivity.
      + right. auto.
  Qed.
  Lemma mixed_writers_only n sched : forall s (ws : list W) (rs : list P), length ws = n -> exists rs',
    let w := run_threads wstep (s, ws) (filter (fun i => i <? n) sched) in
    run_threads mixed (s, map inl ws ++ map inr rs) sched = (fst w, map inl (snd w) ++ map inr rs').
  Proof.
    induction sched as [|i sched IH]; intros s ws rs H; [exists rs; reflexivity|]. unfold run_threads. cbn [fold_left filter]. destruct (mixed_step_at s ws rs i) as [(w & Hw & E1 & E2)|[(j & r & -> & Hr & E1)|(Hi & E1)]]; rewrite E1.
    - assert (L : i < length ws) by (apply nth_error_Some; congruence). rewrite (proj2 (Nat.ltb_lt i n)) by lia. cbn [fold_left]. rewrite E2. apply IH. rewrite list_set_length. exact H.
    - rewrite (proj2 (Nat.ltb_ge _ n)) by lia. apply IH, H.
    - rewrite (proj2 (Nat.ltb_ge _ n)) by lia. apply IH, H.
  Qed.
End Mixed.

Section Facts.
  Context {K T R : Type} (keqb : K -> K -> bool) (reqb : R -> R -> bool) (keqb_ok : eqb_ok keqb).
  Notation call := (lx_call K T R).
  Notation reader := (lexicon_reader K R).
  Context (l0 : lexicon K T R) (calls : list call) (readers : list reader).
  Notation run := (reading_templates keqb reqb l0 calls readers).

  (** the candidates among the entries of a key *)
  Definition candidates (q : lr_query K R) (ents : list (T * list R)) : list T :=
    if q_nearest q then let st := fold_left (nearest_templates_step reqb (q_restrictions q)) ents ([], (-1)%Z) in map fst (filter (fun td => Z.eqb (snd td) (snd st)) (fst st))
    else map fst (filter (fun tr => issubset reqb (snd tr) (q_restrictions q)) ents).
  Lemma sequential_answer_eq (l : lexicon K T R) r : sequential_answer keqb reqb l r =
    let q := query r in
    match q_random q with
    | None => Several (candidates q (entries keqb l (q_key q)))
    | Some rnd => Single (if negb (dmem keqb (q_key q) l) then Err UnknownLexiconKeyError else match candidates q (entries keqb l (q_key q)) with [] => Err NoTemplatesWithSpecifiedRestrictions | _ => choice rnd (candidates q (entries keqb l (q_key q))) end)
    end.
  Proof.
    destruct r; try reflexivity; cbn; unfold get_random_template, get_random_nearest_template; destruct (negb (dmem keqb key l)); try reflexivity.
    - change (map fst (filter _ _)) with (get_templates keqb reqb l key restrictions). destruct (get_templates keqb reqb l key restrictions); reflexivity.
    - change (map fst (filter _ _)) with (get_nearest_templates keqb reqb l key restrictions). destruct (get_nearest_templates keqb reqb l key restrictions); reflexivity.
  Qed.
  Lemma query_key (r : reader) : q_key (query r) = asks_for r.
  Proof. destruct r; reflexivity. Qed.

  Definition located (owners : list K) (s : lx_state K T R) (key : K) (r : nat) : Prop :=
    nth_error owners r = Some key /\ dmem keqb key (lx_data s) = true /\ (dmem keqb key l0 = false -> length l0 <= r) /\ (safe_key keqb l0 calls key -> dget keqb key (lx_data s) = Some r).
  Definition sound (owners : list K) (s : lx_state K T R) (q : lr_query K R) (pc : lr_pc K T R) : Prop :=
    match pc with
    | LR_test q' => q' = q /\ q_random q <> None
    | LR_get q' => q' = q /\ (q_random q <> None -> dmem keqb (q_key q) (lx_data s) = true)
    | LR_templates q' r n acc => q' = q /\ q_nearest q = false /\ located owners s (q_key q) r /\
        exists pre more, nth r (lx_lists s) [] = pre ++ more /\ n = length pre /\ acc = map fst (filter (fun tr => issubset reqb (snd tr) (q_restrictions q)) pre)
    | LR_nearest q' r n acc => q' = q /\ q_nearest q = true /\ located owners s (q_key q) r /\
        exists pre more, nth r (lx_lists s) [] = pre ++ more /\ n = length pre /\ acc = fold_left (nearest_templates_step reqb (q_restrictions q)) pre ([], (-1)%Z)
    | LR_answer _ => True
    end.

  Lemma list_set_over {A} (l : list A) n x : length l <= n -> list_set n x l = l.
  Proof. revert n. induction l as [|y l IH]; intros [|n] H; cbn in *; try reflexivity; [lia|]. f_equal. apply IH. lia. Qed.
  Lemma lists_grow s pc r : exists more, nth r (lx_lists (fst (at_step (T := T) (R := R) keqb s pc))) [] = nth r (lx_lists s) [] ++ more.
  Proof.
    destruct pc as [c|c|c|c r'|c r']; cbn [at_step fst lx_lists]; try (exists []; rewrite app_nil_r; reflexivity).
    - exists []. rewrite app_nil_r. apply nth_app_nil.
    - destruct (Nat.lt_ge_cases r' (length (lx_lists s))) as [H|H].
      + rewrite (nth_list_set _ _ _ _ _ H). destruct (Nat.eqb_spec r r') as [->|]; [eexists; reflexivity|exists []; rewrite app_nil_r; reflexivity].
      + exists []. rewrite app_nil_r, list_set_over by exact H. reflexivity.
  Qed.
  Lemma keys_grow s pc k : dmem keqb k (lx_data s) = true -> dmem keqb k (lx_data (fst (at_step (T := T) (R := R) keqb s pc))) = true.
  Proof. destruct pc as [c|c|c|c r'|c r']; cbn [at_step fst lx_data]; auto. apply dmem_dset_mono. exact keqb_ok. Qed.

  Lemma sound_kept owners logs owners' s ws i pc q p : at_inv keqb l0 calls owners logs (s, ws) -> nth_error ws i = Some pc -> (forall r x, nth_error owners r = Some x -> nth_error owners' r = Some x) ->
    sound owners s q p -> sound owners' (fst (at_step keqb s pc)) q p.
  Proof.
    intros HI Hi Ho. set (s' := fst (at_step keqb s pc)).
    assert (L : forall r, located owners s (q_key q) r -> located owners' s' (q_key q) r).
    { intros r (L1 & L2 & L3 & L4). split; [auto|]. split; [apply keys_grow, L2|]. split; [exact L3|]. intros Hs. specialize (L4 Hs). destruct (ti_safe _ _ _ _ _ _ HI _ Hs) as ([[S1 S2]|[S1 S2]] & _); [|cbn in S1; congruence].
      unfold s'. destruct pc as [c|c|c|c r'|c r']; cbn [at_step fst lx_data]; try exact L4. rewrite (dget_dset _ keqb_ok). destruct (keqb (lc_key c) (q_key q)) eqn:E; [|exact L4]. apply keqb_ok in E. exfalso. apply (S2 i c); assumption. }
    destruct p as [q'|q'|q' r n acc|q' r n acc|a]; cbn [sound]; auto.
    - intros [-> H]. split; [reflexivity|]. intros Q. apply keys_grow, H, Q.
    - intros (-> & H1 & H2 & pre & more & H3 & H4 & H5). split; [reflexivity|]. split; [exact H1|]. split; [apply L, H2|]. destruct (lists_grow s pc r) as [m Em]. exists pre, (more ++ m). rewrite app_assoc, <- H3. auto.
    - intros (-> & H1 & H2 & pre & more & H3 & H4 & H5). split; [reflexivity|]. split; [exact H1|]. split; [apply L, H2|]. destruct (lists_grow s pc r) as [m Em]. exists pre, (more ++ m). rewrite app_assoc, <- H3. auto.
  Qed.
  Lemma located_at owners logs s ws key r : at_inv keqb l0 calls owners logs (s, ws) -> dget keqb key (lx_data s) = Some r -> located owners s key r.
  Proof.
    intros HI H. split; [apply (ti_own _ _ _ _ _ _ HI), H|]. split; [unfold dmem; rewrite H; reflexivity|]. split; [intros E; apply (ti_new _ _ _ _ _ _ HI key r H E)|]. intros _. exact H.
  Qed.
  Lemma sound_step owners logs s ws q p : at_inv keqb l0 calls owners logs (s, ws) -> sound owners s q p -> sound owners s q (lr_step keqb reqb s p).
  Proof.
    intros HI. destruct p as [q'|q'|q' r n acc|q' r n acc|a]; cbn [lr_step].
    - intros [-> H]. destruct (dmem keqb (q_key q) (lx_data s)) eqn:E; cbn [negb]; [|exact I]. cbn. auto.
    - intros [-> H]. destruct (dget keqb (q_key q) (lx_data s)) as [r|] eqn:E; [|exact I]. destruct (q_nearest q) eqn:En; cbn [sound]; (split; [reflexivity|]; split; [reflexivity || exact En|]; split; [eapply located_at; eassumption|]; exists [], (nth r (lx_lists s) []); auto).
    - intros (-> & H1 & H2 & pre & more & H3 & -> & ->). rewrite H3. destruct more as [|x more]; [rewrite app_nil_r, (proj2 (nth_error_None pre (length pre)) (le_n _)); exact I|].
      rewrite nth_error_app2, Nat.sub_diag by lia. cbn [nth_error sound]. split; [reflexivity|]. split; [exact H1|]. split; [exact H2|]. exists (pre ++ [x]), more. rewrite <- app_assoc, app_length, filter_app, map_app. split; [exact H3|]. split; [cbn; lia|]. cbn [filter].
      destruct (issubset reqb (snd x) (q_restrictions q)); [reflexivity|]. rewrite app_nil_r. reflexivity.
    - intros (-> & H1 & H2 & pre & more & H3 & -> & ->). rewrite H3. destruct more as [|x more]; [rewrite app_nil_r, (proj2 (nth_error_None pre (length pre)) (le_n _)); exact I|].
      rewrite nth_error_app2, Nat.sub_diag by lia. cbn [nth_error sound]. split; [reflexivity|]. split; [exact H1|]. split; [exact H2|]. exists (pre ++ [x]), more. rewrite <- app_assoc, app_length, fold_left_app. split; [exact H3|]. split; [cbn; lia|]. reflexivity.
    - auto.
  Qed.

  Record lr_inv (st : lx_state K T R * list (at_pc K T R + lr_pc K T R)) (owners : list K) (logs : nat -> list (nat * call)) (ws : list (at_pc K T R)) (rs : list (lr_pc K T R)) : Prop := {
    li_split : snd st = map inl ws ++ map inr rs;
    li_len : length ws = length calls;
    li_at : at_inv keqb l0 calls owners logs (fst st, ws);
    li_sound : Forall2 (fun r pc => sound owners (fst st) (query r) pc) readers rs }.
  Lemma Forall2_set {A B} (P : A -> B -> Prop) l l' j b : Forall2 P l l' -> (forall a, nth_error l j = Some a -> P a b) -> Forall2 P l (list_set j b l').
  Proof. intros H. revert j. induction H as [|x y l l' H H' IH]; intros [|j] Hb; cbn [list_set]; constructor; auto. Qed.
  Lemma Forall2_at {A B} (P : A -> B -> Prop) l l' j a b : Forall2 P l l' -> nth_error l j = Some a -> nth_error l' j = Some b -> P a b.
  Proof. intros H. revert j. induction H as [|x y l l' H H' IH]; intros [|j] Ha Hb; try discriminate; [injection Ha as <-; injection Hb as <-; exact H|eapply IH; eassumption]. Qed.
  Lemma Forall2_mono {A B} (P Q : A -> B -> Prop) l l' : (forall a b, P a b -> Q a b) -> Forall2 P l l' -> Forall2 Q l l'.
  Proof. intros H F. induction F; constructor; auto. Qed.
  Lemma lr_inv_run schedule : exists owners logs ws rs, lr_inv (run schedule) owners logs ws rs.
  Proof.
    unfold reading_templates, lm_run. apply (run_invariant (lm_step keqb reqb) (fun st => exists owners logs ws rs, lr_inv st owners logs ws rs)).
    - intros [s pcs] i (owners & logs & ws & rs & [E L A F]). cbn [fst snd] in *. subst pcs.
      destruct (mixed_step_at (at_step keqb) (lr_step keqb reqb) s ws rs i) as [(w & Hw & E1 & E2)|[(j & r & -> & Hr & E1)|(Hi & E1)]]; change (mixed (at_step keqb) (lr_step keqb reqb)) with (lm_step (T := T) keqb reqb) in E1; rewrite E1.
      + destruct (at_inv_step keqb keqb_ok l0 calls owners logs (s, ws) i A) as (owners' & logs' & A' & Ho). rewrite E2 in A'. exists owners', logs', (list_set i (snd (at_step keqb s w)) ws), rs.
        split; cbn [fst snd]; [reflexivity|rewrite list_set_length; exact L|exact A'|]. eapply Forall2_mono; [|exact F]. intros r p. eapply sound_kept; eassumption.
      + exists owners, logs, ws, (list_set j (lr_step keqb reqb s r) rs). split; cbn [fst snd]; [reflexivity|exact L|exact A|]. apply Forall2_set; [exact F|]. intros a Ha. eapply sound_step; [exact A|]. eapply Forall2_at in F; eassumption.
      + exists owners, logs, ws, rs. split; auto.
    - exists (map fst l0), (fun _ => []), (map AT_test calls), (map (fun r => lr_start (query r)) readers). split; cbn [fst snd].
      + rewrite !map_map. reflexivity.
      + apply map_length.
      + apply at_inv_start, keqb_ok.
      + induction readers as [|r rest IH]; constructor; [|exact IH]. unfold lr_start. destruct (q_random (query r)) eqn:E; cbn [sound]; (split; [reflexivity|congruence]).
  Qed.

  (** the last step of a reader *)
  Lemma last_step owners logs s ws r p a : at_inv keqb l0 calls owners logs (s, ws) -> sound owners s (query r) p -> (forall b, p <> LR_answer b) -> lr_step keqb reqb s p = LR_answer a ->
    a = sequential_answer keqb reqb (lx_view s) r \/
    exists n, located owners s (asks_for r) n /\
      a = match q_random (query r) with
          | None => Several (candidates (query r) (nth n (lx_lists s) []))
          | Some rnd => Single (match candidates (query r) (nth n (lx_lists s) []) with [] => Err NoTemplatesWithSpecifiedRestrictions | _ => choice rnd (candidates (query r) (nth n (lx_lists s) [])) end)
          end.
  Proof.
    intros HI HS HN HE. rewrite sequential_answer_eq. cbv zeta. rewrite <- query_key. set (q := query r) in *. rewrite entries_view.
    assert (HK : dmem keqb (q_key q) (lx_view s) = dmem keqb (q_key q) (lx_data s)) by (exact (has_key_view keqb s (q_key q))). rewrite HK.
    destruct p as [q'|q'|q' n pos acc|q' n pos acc|b]; cbn [lr_step sound] in *; [| | | |exfalso; eapply HN; reflexivity].
    - destruct HS as [-> HR]. destruct (dmem keqb (q_key q) (lx_data s)) eqn:E; cbn [negb] in HE; [discriminate|]. injection HE as <-. left. destruct (q_random q) as [rnd|]; [reflexivity|congruence].
    - destruct HS as [-> HR]. destruct (dget keqb (q_key q) (lx_data s)) as [m|] eqn:E; [destruct (q_nearest q); discriminate|]. unfold dmem in HR. rewrite E in HR. left. unfold lr_finish in HE. destruct (q_random q) as [rnd|]; [specialize (HR ltac:(discriminate)); discriminate|].
      injection HE as <-. unfold candidates. destruct (q_nearest q); reflexivity.
    - destruct HS as (-> & H1 & H2 & pre & more & H3 & -> & ->). destruct more as [|x more]; rewrite H3 in HE.
      + right. exists n. split; [exact H2|]. rewrite app_nil_r in HE, H3. rewrite (proj2 (nth_error_None pre (length pre)) (le_n _)) in HE. unfold lr_finish in HE. injection HE as <-. rewrite H3. unfold candidates. rewrite H1. reflexivity.
      + rewrite nth_error_app2, Nat.sub_diag in HE by lia. discriminate.
    - destruct HS as (-> & H1 & H2 & pre & more & H3 & -> & ->). destruct more as [|x more]; rewrite H3 in HE.
      + right. exists n. split; [exact H2|]. rewrite app_nil_r in HE, H3. rewrite (proj2 (nth_error_None pre (length pre)) (le_n _)) in HE. unfold lr_finish in HE. injection HE as <-. rewrite H3. unfold candidates. rewrite H1. reflexivity.
      + rewrite nth_error_app2, Nat.sub_diag in HE by lia. discriminate.
  Qed.
  Lemma last_step_safe owners logs s ws r p a : at_inv keqb l0 calls owners logs (s, ws) -> sound owners s (query r) p -> (forall b, p <> LR_answer b) -> lr_step keqb reqb s p = LR_answer a ->
    safe_key keqb l0 calls (asks_for r) -> a = sequential_answer keqb reqb (lx_view s) r.
  Proof.
    intros HI HS HN HE Hs. destruct (last_step _ _ _ _ _ _ _ HI HS HN HE) as [H|(n & (L1 & L2 & L3 & L4) & ->)]; [exact H|]. specialize (L4 Hs). rewrite sequential_answer_eq. cbv zeta. rewrite entries_view, query_key, L4.
    assert (HK : dmem keqb (asks_for r) (lx_view s) = dmem keqb (asks_for r) (lx_data s)) by (exact (has_key_view keqb s _)). rewrite HK, L2. reflexivity.
  Qed.
End Facts.
