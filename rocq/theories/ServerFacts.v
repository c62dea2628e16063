(** * ServerFacts: the program of Server.v seen from its lexicon, from its dictionary and from one story *)
From Coq Require Import Lia.
From Verif Require Import PyBase PyBaseFacts Words Dictionary Lexicon Templates Concurrent Readers LexReaders Server SpecConcurrent SpecReaders SpecLexReaders SpecServer ConcurrentFacts ReaderFacts PropReaders.

(** ** projections of schedules *)
Lemma simulate {S P S' P'} (step : S -> P -> S * P) (step' : S' -> P' -> S' * P') (Rel : S * list P -> S' * list P' -> Prop) (proj : nat -> list nat) :
  (forall st st' i, Rel st st' -> Rel (step_at step st i) (run_threads step' st' (proj i))) ->
  forall sched st st', Rel st st' -> Rel (run_threads step st sched) (run_threads step' st' (flat_map proj sched)).
Proof.
  intros H sched. induction sched as [|i sched IH]; intros st st' HR; [exact HR|]. cbn [flat_map]. rewrite run_app. cbn [run_threads fold_left]. apply IH, H, HR.
Qed.
Lemma flat_filter (f : nat -> bool) (g : nat -> nat) l : flat_map (fun i => if f i then [g i] else []) l = map g (filter f l).
Proof. induction l as [|x l IH]; [reflexivity|]. cbn [flat_map filter]. destruct (f x); cbn [app map]; rewrite IH; reflexivity. Qed.
Lemma flat_prefix (f : nat -> bool) (g : nat -> nat) l : forall a x b, map g (filter f l) = a ++ x :: b ->
  exists l1 i l2, l = l1 ++ i :: l2 /\ f i = true /\ g i = x /\ map g (filter f l1) = a.
Proof.
  induction l as [|y l IH]; intros a x b E; [destruct a; discriminate|]. cbn [filter] in E. destruct (f y) eqn:F.
  - destruct a as [|z a]; cbn [map app] in E; injection E as E1 E2.
    + exists [], y, l. auto.
    + destruct (IH _ _ _ E2) as (l1 & i & l2 & -> & A & B & C). exists (y :: l1), i, l2. split; [reflexivity|]. split; [exact A|]. split; [exact B|]. cbn [filter]. rewrite F. cbn [map]. rewrite C, E1. reflexivity.
  - destruct (IH _ _ _ E) as (l1 & i & l2 & -> & A & B & C). exists (y :: l1), i, l2. split; [reflexivity|]. split; [exact A|]. split; [exact B|]. cbn [filter]. rewrite F. exact C.
Qed.
Lemma moves_app i a b : moves i (a ++ b) = moves i a + moves i b.
Proof. apply count_occ_app. Qed.
Lemma moves_shift n i l : moves i (map (fun x => x - n) (filter (fun x => n <=? x) l)) = moves (n + i) l.
Proof.
  unfold moves. induction l as [|x l IH]; [reflexivity|]. cbn [filter count_occ]. destruct (Nat.leb_spec n x) as [L|L]; cbn [map count_occ].
  - destruct (Nat.eq_dec (x - n) i), (Nat.eq_dec x (n + i)); try lia; rewrite IH; reflexivity.
  - destruct (Nat.eq_dec x (n + i)); [lia|exact IH].
Qed.
Lemma moves_prefix i n : forall l, n <= moves i l -> exists a b, l = a ++ b /\ moves i a = n.
Proof.
  induction n as [|n IH]; intros l H; [exists [], l; auto|]. destruct (IH l ltac:(lia)) as (a & b & -> & E). rewrite moves_app in H. assert (P : 0 < moves i b) by lia. clear H.
  assert (X : exists c d, b = c ++ i :: d /\ moves i c = 0).
  { clear - P. unfold moves in *. induction b as [|x b IH]; [cbn in P; lia|]. cbn [count_occ] in P. destruct (Nat.eq_dec x i) as [->|Hn]; [exists [], b; auto|].
    destruct (IH P) as (c & d & -> & E). exists (x :: c), d. split; [reflexivity|]. cbn [count_occ]. destruct (Nat.eq_dec x i); [contradiction|exact E]. }
  destruct X as (c & d & -> & Ec). exists (a ++ c ++ [i]), d. split; [rewrite <- !app_assoc; reflexivity|]. rewrite !moves_app, E, Ec. unfold moves. cbn [count_occ]. destruct (Nat.eq_dec i i); lia.
Qed.

Section Facts.
  Context {K R : Type} (keqb : K -> K -> bool) (reqb : R -> R -> bool) (U : unicode).
  Notation step := (sv_step keqb reqb U).
  Notation run := (run_threads (sv_step keqb reqb U)).

  Lemma other_thread st i j : i <> j -> nth_error (snd (step_at step st i)) j = nth_error (snd st) j.
  Proof.
    intros H. unfold step_at. destruct (nth_error (snd st) i) as [pc|] eqn:E; [|reflexivity]. destruct (step (fst st) pc) as [s' pc']. cbn [snd]. rewrite (set_nth_at _ _ _ _ _ E). destruct (Nat.eqb_spec j i); [congruence|reflexivity].
  Qed.
  Lemma own_thread st i pc : nth_error (snd st) i = Some pc -> nth_error (snd (step_at step st i)) i = Some (snd (step (fst st) pc)).
  Proof. intros E. unfold step_at. rewrite E. destruct (step (fst st) pc) as [s' pc']. cbn [snd]. rewrite (set_nth_at _ _ _ _ _ E), Nat.eqb_refl. reflexivity. Qed.

  (** ** the dictionary: the add_word threads alone *)
  Definition dict_rel (n : nat) (st : sv_state K R * list (sv_pc K R)) (sa : dictionary * list aw_pc) : Prop :=
    snd (fst st) = fst sa /\ length (snd sa) = n /\ (forall i pc, nth_error (snd sa) i = Some pc -> nth_error (snd st) i = Some (SV_word pc)) /\
    (forall i w, n <= i -> nth_error (snd st) i <> Some (SV_word w)).
  Lemma dict_step n st sa i : dict_rel n st sa -> dict_rel n (step_at step st i) (run_threads (aw_step U) sa (if i <? n then [i] else [])).
  Proof.
    intros (E & L & W & N). destruct (Nat.ltb_spec i n) as [Hi|Hi].
    - cbn [run_threads fold_left]. destruct (nth_error (snd sa) i) as [pc|] eqn:Ei; [|apply nth_error_None in Ei; lia]. assert (Wi := W _ _ Ei). unfold step_at. rewrite Ei, Wi. cbn [sv_step]. rewrite <- E.
      destruct (aw_step U (snd (fst st)) pc) as [d' pc'] eqn:Es. unfold dict_rel. cbn [fst snd]. split; [reflexivity|]. split; [rewrite list_set_length; exact L|]. split.
      + intros j q. rewrite (set_nth_at _ _ _ _ _ Ei), (set_nth_at _ _ _ _ _ Wi). destruct (Nat.eqb j i); [congruence|apply W].
      + intros j w Hj. rewrite (set_nth_at _ _ _ _ _ Wi). destruct (Nat.eqb_spec j i); [lia|apply N, Hj].
    - cbn [run_threads fold_left]. unfold step_at. destruct (nth_error (snd st) i) as [pc|] eqn:Ei; [|split; auto].
      assert (Hs : snd (fst (step (fst st) pc)) = snd (fst st) /\ forall w, snd (step (fst st) pc) <> SV_word w).
      { destruct pc as [w|c|p ext|p]; [exfalso; exact (N i w Hi Ei)| | |]; cbn [sv_step].
        - destruct (at_step keqb (fst (fst st)) c). split; [reflexivity|discriminate].
        - split; [reflexivity|]. intros w. cbn [snd]. unfold sv_selected. destruct (lr_step keqb reqb (fst (fst st)) p) as [| | | |[l|[t|e]]]; discriminate.
        - split; [reflexivity|discriminate]. }
      destruct (step (fst st) pc) as [s' pc']. cbn [fst snd] in Hs. destruct Hs as [Hs Hw]. unfold dict_rel. cbn [fst snd]. split; [congruence|]. split; [exact L|]. split.
      + intros j q Hj. rewrite (set_nth_at _ _ _ _ _ Ei). destruct (Nat.eqb_spec j i) as [->|]; [|apply W, Hj]. exfalso. assert (i < length (snd sa)) by (apply nth_error_Some; congruence). lia.
      + intros j w Hj. rewrite (set_nth_at _ _ _ _ _ Ei). destruct (Nat.eqb_spec j i); [injection; apply Hw|apply N, Hj].
  Qed.
  Lemma dictionary_alone p schedule : dictionary_at keqb reqb U p schedule = fst (adding U (pr_dictionary p) (pr_words p) (filter (fun i => i <? length (pr_words p)) schedule)) /\
    forall i, i < length (pr_words p) -> nth_error (snd (running keqb reqb U p schedule)) i = option_map SV_word (nth_error (snd (adding U (pr_dictionary p) (pr_words p) (filter (fun i => i <? length (pr_words p)) schedule))) i).
  Proof.
    unfold dictionary_at, running, adding, aw_run, sv_run. set (n := length (pr_words p)).
    match goal with |- context [run_threads _ ?st0 schedule] => set (st := st0) end.
    assert (H : dict_rel n (run st schedule) (run_threads (aw_step U) (pr_dictionary p, map aw_start (pr_words p)) (flat_map (fun i => if i <? n then [i] else []) schedule))).
    { apply (simulate step (aw_step U) (dict_rel n)); [intros; apply dict_step; assumption|]. unfold st. split; [reflexivity|]. split; [apply map_length|]. cbn [snd]. split.
      - intros i pc Hi. rewrite nth_error_app1 by (rewrite map_length; apply nth_error_Some; intros X; apply nth_error_None in X; assert (Y : i < length (map aw_start (pr_words p))) by (apply nth_error_Some; congruence); rewrite map_length in Y; lia).
        rewrite nth_error_map in *. destruct (nth_error (pr_words p) i); [|discriminate]. cbn in *. congruence.
      - intros i w Hi. rewrite nth_error_app2 by (rewrite map_length; exact Hi). intros X. apply nth_error_In, in_app_iff in X as [X|X]; apply in_map_iff in X as (y & X & _); discriminate. }
    rewrite (flat_filter (fun i => i <? n) (fun i => i)), map_id in H. destruct H as (A & B & C & D). split; [exact A|]. intros i Hi.
    match type of C with context [snd ?sa] => destruct (nth_error (snd sa) i) as [pc|] eqn:E end; [rewrite (C _ _ E); reflexivity|]. apply nth_error_None in E. lia.
  Qed.

  (** ** the lexicon: the add_template threads and the selections *)
  Notation lm := (lm_step (T := template) keqb reqb).
  Definition matches (pc : sv_pc K R) (lp : at_pc K template R + lr_pc K template R) : Prop :=
    match pc, lp with
    | SV_template c, inl c' => c = c'
    | SV_select p ext, inr p' => p = p' /\ sv_selected ext p = SV_select p ext
    | SV_print _, inr (LR_answer (Single _)) => True
    | _, _ => False
    end.
  Definition lex_rel (n : nat) (st : sv_state K R * list (sv_pc K R)) (sl : lx_state K template R * list (at_pc K template R + lr_pc K template R)) : Prop :=
    fst (fst st) = fst sl /\ length (snd st) = n + length (snd sl) /\ (forall i, i < n -> exists w, nth_error (snd st) i = Some (SV_word w)) /\
    forall i lp, nth_error (snd sl) i = Some lp -> exists pc, nth_error (snd st) (n + i) = Some pc /\ matches pc lp.
  Lemma lex_step n st sl i : lex_rel n st sl -> lex_rel n (step_at step st i) (run_threads lm sl (if n <=? i then [i - n] else [])).
  Proof.
    intros (E & L & W & M). destruct (Nat.leb_spec n i) as [Hi|Hi].
    - cbn [run_threads fold_left]. destruct (nth_error (snd sl) (i - n)) as [lp|] eqn:El.
      2: { assert (Ei : nth_error (snd st) i = None) by (apply nth_error_None; apply nth_error_None in El; lia). unfold step_at. rewrite El, Ei. split; auto. }
      destruct (M _ _ El) as (pc & Ep & Hm). replace (n + (i - n)) with i in Ep by lia. unfold step_at. rewrite El, Ep.
      assert (G : fst (fst (step (fst st) pc)) = fst (lm (fst sl) lp) /\ matches (snd (step (fst st) pc)) (snd (lm (fst sl) lp))).
      { destruct pc as [w|c|p ext|p], lp as [c'|p']; cbn [matches] in Hm; try contradiction.
        - subst c'. cbn [sv_step lm_step]. rewrite E. destruct (at_step keqb (fst sl) c). cbn. auto.
        - destruct Hm as [<- Hm]. cbn [sv_step lm_step fst snd]. split; [exact E|]. rewrite E. destruct (lr_step keqb reqb (fst sl) p) as [| | | |[l|[t|e]]]; cbn; auto.
        - destruct p' as [| | | |[|r]]; try contradiction. cbn. auto. }
      destruct (step (fst st) pc) as [s' pc'], (lm (fst sl) lp) as [s2 lp']. cbn [fst snd] in G. destruct G as [G1 G2]. unfold lex_rel. cbn [fst snd]. split; [exact G1|]. split; [rewrite !list_set_length; exact L|]. split.
      + intros j Hj. rewrite (set_nth_at _ _ _ _ _ Ep). destruct (Nat.eqb_spec j i); [lia|apply W, Hj].
      + intros j q. rewrite (set_nth_at _ _ _ _ _ El), (set_nth_at _ _ _ _ _ Ep). destruct (Nat.eqb_spec j (i - n)) as [->|Hj].
        * replace (n + (i - n)) with i by lia. rewrite Nat.eqb_refl. intros [= <-]. exists pc'. auto.
        * destruct (Nat.eqb_spec (n + j) i); [lia|]. apply M.
    - cbn [run_threads fold_left]. destruct (W i Hi) as [w Ew]. unfold step_at. rewrite Ew. cbn [sv_step]. destruct (aw_step U (snd (fst st)) w) as [d' w']. unfold lex_rel. cbn [fst snd]. split; [exact E|]. split; [rewrite list_set_length; exact L|]. split.
      + intros j Hj. rewrite (set_nth_at _ _ _ _ _ Ew). destruct (Nat.eqb j i); [eauto|apply W, Hj].
      + intros j q Hj. rewrite (set_nth_at _ _ _ _ _ Ew). destruct (Nat.eqb_spec (n + j) i); [lia|apply M, Hj].
  Qed.
  Definition lex_schedule (p : program K R) (schedule : list nat) : list nat := map (fun i => i - length (pr_words p)) (filter (fun i => length (pr_words p) <=? i) schedule).
  Notation lexrun p schedule := (reading_templates (T := template) keqb reqb (pr_lexicon p) (pr_calls p) (map story_reader (pr_stories p)) (lex_schedule p schedule)).
  Lemma lexicon_alone p schedule : lex_rel (length (pr_words p)) (running keqb reqb U p schedule) (lexrun p schedule).
  Proof.
    unfold running, reading_templates, sv_run, lm_run, lex_schedule. set (n := length (pr_words p)). rewrite <- (flat_filter (fun i => n <=? i) (fun i => i - n)).
    apply (simulate step lm (lex_rel n)); [intros; apply lex_step; assumption|]. split; [reflexivity|]. cbn [snd]. split; [rewrite !app_length, !map_length; reflexivity|]. split.
    - intros i Hi. rewrite nth_error_app1 by (rewrite map_length; exact Hi). rewrite nth_error_map. destruct (nth_error (pr_words p) i) eqn:E; [eexists; reflexivity|]. apply nth_error_None in E. unfold n in Hi. lia.
    - intros i lp Hi. rewrite nth_error_app2 by (rewrite map_length; unfold n; lia). rewrite map_length. replace (n + i - length (pr_words p)) with i by (unfold n; lia).
      destruct (Nat.lt_ge_cases i (length (pr_calls p))) as [Hc|Hc].
      + rewrite nth_error_app1 in Hi |- * by (rewrite map_length; exact Hc). rewrite nth_error_map in Hi |- *. destruct (nth_error (pr_calls p) i) as [c|]; [|discriminate]. injection Hi as <-. eexists. split; [reflexivity|]. reflexivity.
      + rewrite nth_error_app2 in Hi |- * by (rewrite map_length; exact Hc). rewrite map_length in Hi |- *. rewrite map_map, nth_error_map in Hi. rewrite nth_error_map. destruct (nth_error (pr_stories p) (i - length (pr_calls p))) as [q|]; [|discriminate].
        injection Hi as <-. eexists. split; [reflexivity|]. unfold story_reader. destruct (st_nearest q); cbn; auto.
  Qed.
  Lemma templates_alone p schedule : templates_at keqb reqb U p schedule = lexicon_at keqb reqb (pr_lexicon p) (pr_calls p) (map story_reader (pr_stories p)) (lex_schedule p schedule).
  Proof. unfold templates_at, lexicon_at. destruct (lexicon_alone p schedule) as [E _]. rewrite E. reflexivity. Qed.

  (** ** one story *)
  Definition told_from (ext : externals) (sel : result template) : rd_pc := match sel with Ok t => RD_substitute t ext [] (t_subs t) | Err e => RD_text (Err e) end.
  Lemma selection_split p j q schedule : nth_error (pr_stories p) j = Some q -> let J := teller p j in
    (exists a, nth_error (snd (running keqb reqb U p schedule)) J = Some (SV_select a (st_externals q))) \/
    exists s1 s2 sel, schedule = s1 ++ J :: s2 /\ reader_answered (T := template) keqb reqb (pr_lexicon p) (pr_calls p) (map story_reader (pr_stories p)) (lex_schedule p (s1 ++ [J])) j (Single sel) /\
      nth_error (snd (running keqb reqb U p (s1 ++ [J]))) J = Some (SV_print (told_from (st_externals q) sel)).
  Proof.
    intros Hq J. assert (HJ : length (pr_words p) <= J) by (unfold J, teller; lia). assert (HJn : J - length (pr_words p) = length (pr_calls p) + j) by (unfold J, teller; lia). induction schedule as [|x schedule IH] using rev_ind.
    - left. unfold running, sv_run. cbn [run_threads fold_left snd]. unfold J, teller. rewrite nth_error_app2 by (rewrite map_length; lia). rewrite map_length. replace (length (pr_words p) + (length (pr_calls p) + j) - length (pr_words p)) with (length (pr_calls p) + j) by lia.
      rewrite nth_error_app2 by (rewrite map_length; lia). rewrite map_length. replace (length (pr_calls p) + j - length (pr_calls p)) with j by lia. rewrite nth_error_map, Hq. eexists. reflexivity.
    - destruct IH as [(a & Ha)|(s1 & s2 & sel & E & A & B)]; [|right; exists s1, (s2 ++ [x]), sel; split; [rewrite E, <- app_assoc; reflexivity|auto]].
      assert (Er : running keqb reqb U p (schedule ++ [x]) = step_at step (running keqb reqb U p schedule) x) by (unfold running, sv_run; rewrite run_app; reflexivity).
      destruct (Nat.eq_dec x J) as [->|Hx]; [|left; exists a; rewrite Er, other_thread by exact Hx; exact Ha].
      assert (Ho := own_thread _ _ _ Ha). rewrite <- Er in Ho. cbn [sv_step snd] in Ho.
      destruct (lexicon_alone p schedule) as (E & L & _ & M). set (sl := lexrun p schedule) in *.
      destruct (nth_error (snd sl) (length (pr_calls p) + j)) as [lp|] eqn:El.
      2: { exfalso. apply nth_error_None in El. assert (J < length (snd (running keqb reqb U p schedule))) by (apply nth_error_Some; congruence). unfold J, teller in *. lia. }
      destruct (M _ _ El) as (pc & Ep & Hm). change (length (pr_words p) + (length (pr_calls p) + j)) with J in Ep. rewrite Ha in Ep. injection Ep as <-. destruct lp as [|p']; [contradiction|]. destruct Hm as [<- Hm].
      assert (El' : nth_error (snd (lexrun p (schedule ++ [J]))) (length (pr_calls p) + j) = Some (inr (lr_step keqb reqb (fst sl) a))).
      { unfold lex_schedule. rewrite filter_app, map_app. cbn [filter]. destruct (Nat.leb_spec (length (pr_words p)) J); [|lia]. cbn [map]. rewrite HJn. unfold reading_templates, lm_run. rewrite run_app. cbn [run_threads fold_left].
        unfold reading_templates, lm_run in sl. match goal with |- context [step_at _ ?s _] => change s with sl end. unfold step_at. rewrite El. cbn [lm_step snd]. rewrite (set_nth_at _ _ _ _ _ El), Nat.eqb_refl. reflexivity. }
      rewrite E in Ho. destruct (lr_step keqb reqb (fst sl) a) as [b|b|b r pos acc|b r pos acc|[l|sel]] eqn:Es; try (left; eexists; rewrite Ho; cbn [sv_selected]; reflexivity).
      right. exists schedule, [], sel. split; [reflexivity|]. split; [exact El'|]. rewrite Ho. destruct sel; reflexivity.
  Qed.

  (** what is printed, from the moment of the selection on *)
  Lemma text_stays J r s2 : forall st, nth_error (snd st) J = Some (SV_print (RD_text r)) -> nth_error (snd (run st s2)) J = Some (SV_print (RD_text r)).
  Proof.
    intros st H. apply (run_invariant step (fun st => nth_error (snd st) J = Some (SV_print (RD_text r)))); [|exact H]. intros st' i Hi. destruct (Nat.eq_dec i J) as [->|Hn]; [rewrite (own_thread _ _ _ Hi); reflexivity|rewrite other_thread by exact Hn; exact Hi].
  Qed.
  Lemma print_run J t ext s2 : forall st acc rest r, nth_error (snd st) J = Some (SV_print (RD_substitute t ext acc rest)) -> nth_error (snd (run st s2)) J = Some (SV_print (RD_text r)) ->
    (exists new, Forall2 (fun s x => exists a b, s2 = a ++ b /\ get_text U s ext (snd (fst (run st a))) = Ok x) rest new /\ r = formatted t (acc ++ new)) \/
    (exists before s after a b e, rest = before ++ s :: after /\ Forall (fun s => exists a b x, s2 = a ++ b /\ get_text U s ext (snd (fst (run st a))) = Ok x) before /\
       s2 = a ++ b /\ get_text U s ext (snd (fst (run st a))) = Err e /\ r = Err e).
  Proof.
    induction s2 as [|i s2 IH]; intros st acc rest r H H'; [cbn in H'; congruence|]. cbn [run_threads fold_left] in H'. change (fold_left (step_at step) s2 (step_at step st i)) with (run (step_at step st i) s2) in H'.
    assert (Sh : forall a, run (step_at step st i) a = run st (i :: a)) by reflexivity.
    assert (Lift : forall acc' rest',
      nth_error (snd (step_at step st i)) J = Some (SV_print (RD_substitute t ext acc' rest')) ->
      (exists new, Forall2 (fun s x => exists a b, i :: s2 = a ++ b /\ get_text U s ext (snd (fst (run st a))) = Ok x) rest' new /\ r = formatted t (acc' ++ new)) \/
      (exists before s after a b e, rest' = before ++ s :: after /\ Forall (fun s => exists a b x, i :: s2 = a ++ b /\ get_text U s ext (snd (fst (run st a))) = Ok x) before /\
         i :: s2 = a ++ b /\ get_text U s ext (snd (fst (run st a))) = Err e /\ r = Err e)).
    { intros acc' rest' Hs. destruct (IH _ _ _ _ Hs H') as [(new & F & Er)|(before & s & after & a & b & e & Hi & F & E & G & Er)].
      - left. exists new. split; [|exact Er]. clear - F Sh. induction F as [|s x l l' (a & b & E & G) F IHF]; constructor; [|exact IHF]. exists (i :: a), b. split; [rewrite E; reflexivity|rewrite <- Sh; exact G].
      - right. exists before, s, after, (i :: a), b, e. split; [exact Hi|]. split; [|split; [rewrite E; reflexivity|]; split; [rewrite <- Sh; exact G|exact Er]].
        clear - F Sh. induction F as [|s l (a & b & x & E & G) F IHF]; constructor; [|exact IHF]. exists (i :: a), b, x. split; [rewrite E; reflexivity|rewrite <- Sh; exact G]. }
    destruct (Nat.eq_dec i J) as [->|Hn].
    - assert (Ho := own_thread _ _ _ H). cbn [sv_step snd] in Ho. destruct rest as [|s rest]; cbn [rd_step] in Ho.
      + left. exists []. split; [constructor|]. rewrite app_nil_r. apply (text_stays J _ s2) in Ho. unfold formatted. congruence.
      + destruct (get_text U s ext (snd (fst st))) as [x|e] eqn:G.
        * destruct (Lift (acc ++ [x]) rest Ho) as [(new & F & Er)|(before & s' & after & a & b & e & Hi & F & E & G' & Er)].
          -- left. exists (x :: new). split; [|rewrite Er, <- app_assoc; reflexivity]. constructor; [|exact F]. exists [], (J :: s2). split; [reflexivity|exact G].
          -- right. exists (s :: before), s', after, a, b, e. split; [rewrite Hi; reflexivity|]. split; [|auto]. constructor; [|exact F]. exists [], (J :: s2), x. split; [reflexivity|exact G].
        * right. exists [], s, rest, [], (J :: s2), e. split; [reflexivity|]. split; [constructor|]. split; [reflexivity|]. split; [exact G|]. apply (text_stays J _ s2) in Ho. congruence.
    - apply (Lift acc rest). rewrite other_thread by exact Hn. exact H.
  Qed.
  Lemma print_progress J t ext s2 : forall st acc rest, nth_error (snd st) J = Some (SV_print (RD_substitute t ext acc rest)) -> length rest < moves J s2 ->
    exists r, nth_error (snd (run st s2)) J = Some (SV_print (RD_text r)).
  Proof.
    induction s2 as [|i s2 IH]; intros st acc rest H L; [cbn in L; lia|]. cbn [run_threads fold_left]. change (fold_left (step_at step) s2 (step_at step st i)) with (run (step_at step st i) s2). unfold moves in L. cbn [count_occ] in L.
    destruct (Nat.eq_dec i J) as [->|Hn].
    - assert (Ho := own_thread _ _ _ H). cbn [sv_step snd] in Ho. destruct rest as [|s rest]; cbn [rd_step] in Ho; [eexists; apply text_stays, Ho|].
      destruct (get_text U s ext (snd (fst st))); [|eexists; apply text_stays, Ho]. apply (IH _ _ _ Ho). cbn [length] in L. unfold moves. lia.
    - apply (IH _ acc rest); [rewrite other_thread by exact Hn; exact H|exact L].
  Qed.
End Facts.
