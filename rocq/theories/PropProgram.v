(** * PropProgram: C91, the whole library in one program of any number of threads *)
From Coq Require Import Lia.
From Verif Require Import PyBase PyBaseFacts Relations Restrictions Logic Data Words Transformators Constructors Dictionary Lexicon Templates Concurrent Readers LexReaders Program
  SpecProps SpecSlots SpecDictionary SpecLists SpecTemplates SpecConcurrent SpecReaders SpecLexReaders SpecIntegers SpecProgram
  SubstFacts PropLexicon ConcurrentFacts ReaderFacts ProgramFacts PropIntegers PropDictionary PropConcurrent PropReaders PropLexicon PropLexiconThreads PropLexReaders.

Section C91.
  Context {K R : Type} (keqb : K -> K -> bool) (reqb : R -> R -> bool) (keqb_ok : eqb_ok keqb) (U : unicode).
  Notation running := (running keqb reqb U).
  Notation call_made := (call_made keqb reqb U).
  Notation dictionary_at := (dictionary_at keqb reqb U).
  Notation request := (pg_request K R).
  Notation state := (pg_state K R).

  Lemma sides {S A B} (step : S -> A + B -> S * (A + B)) (Hl : forall s a, exists a', snd (step s (inl a)) = inl a') (Hr : forall s b, exists b', snd (step s (inr b)) = inr b') st sched n :
    (forall a, nth_error (snd st) n = Some (inl a) -> exists a', nth_error (snd (run_threads step st sched)) n = Some (inl a')) /\
    (forall b, nth_error (snd st) n = Some (inr b) -> exists b', nth_error (snd (run_threads step st sched)) n = Some (inr b')).
  Proof.
    split; intros x0 H0.
    - apply (run_invariant step (fun st => exists w0, nth_error (snd st) n = Some (inl w0))); [|eauto]. clear - Hl. intros st j (w0 & Hw). unfold step_at. destruct (nth_error (snd st) j) as [pc|] eqn:Ej; [|eauto].
      destruct (step (fst st) pc) as [d' pc'] eqn:Es. cbn [snd]. destruct (Nat.eq_dec n j) as [->|N]; [|exists w0; rewrite (set_other _ _ _ _ _ Ej N); exact Hw].
      rewrite Hw in Ej. injection Ej as <-. destruct (Hl (fst st) w0) as [a' E]. rewrite Es in E. cbn in E. subst pc'. exists a'. apply (set_same _ _ _ _ Hw).
    - apply (run_invariant step (fun st => exists w0, nth_error (snd st) n = Some (inr w0))); [|eauto]. clear - Hr. intros st j (w0 & Hw). unfold step_at. destruct (nth_error (snd st) j) as [pc|] eqn:Ej; [|eauto].
      destruct (step (fst st) pc) as [d' pc'] eqn:Es. cbn [snd]. destruct (Nat.eq_dec n j) as [->|N]; [|exists w0; rewrite (set_other _ _ _ _ _ Ej N); exact Hw].
      rewrite Hw in Ej. injection Ej as <-. destruct (Hr (fst st) w0) as [a' E]. rewrite Es in E. cbn in E. subst pc'. exists a'. apply (set_same _ _ _ _ Hw).
  Qed.
  (** ** the dictionary *)
  Definition ask_word (q : request) : option word := match q with Q_add_word w => Some w | _ => None end.
  Definition ask_reader (q : request) : option reader := match q with Q_dictionary r => Some r | _ => None end.
  Definition pick_dictionary (p : pg_call K R) : option (aw_pc + rd_pc) := match p with PG_word x => Some (inl x) | PG_dictionary x => Some (inr x) | _ => None end.
  Theorem C91_dictionary : forall l d c p schedule, exists writers readers sched',
    let ws := map snd writers in let rs := map snd readers in
    NoDup (map fst writers) /\ NoDup (map fst readers) /\
    dictionary_at l d c p schedule = fst (reading U d ws rs sched') /\
    (forall n x w, nth_error writers n = Some (x, w) -> exists pc, call_made l d c p schedule x (Q_add_word w) (PG_word pc) /\ nth_error (snd (reading U d ws rs sched')) n = Some (inl pc)) /\
    (forall n x r, nth_error readers n = Some (x, r) -> exists pc, call_made l d c p schedule x (Q_dictionary r) (PG_dictionary pc) /\ answered U d ws rs sched' n pc) /\
    (forall x w s, call_made l d c p schedule x (Q_add_word w) s -> In (x, w) writers) /\
    (forall x r s, call_made l d c p schedule x (Q_dictionary r) s -> In (x, r) readers) /\
    (forall D, moment U d ws rs sched' D -> exists s1 s2, schedule = s1 ++ s2 /\ D = dictionary_at l d c p s1).
  Proof.
    intros l d c p schedule.
    destruct (parts (pg_step keqb reqb U) pg_start pg_returned (mx_step U) pg_dictionary pick_dictionary ask_word ask_reader (fun w => inl (aw_start w)) (fun r => inr (reader_start r))) with
      (strats := p) (s0 := {| pg_lexicon := lx_of l; pg_dictionary := d; pg_integers := c |}) (sched := schedule) as (la & lb & sched' & H1 & H2 & H3 & H4 & H5 & H6 & H7 & H8).
    - intros s q x Hq. destruct q; try discriminate; injection Hq as <-; cbn [pg_step mx_step].
      + destruct (aw_step U (pg_dictionary s) p0) as [d' p']. split; reflexivity.
      + split; reflexivity.
    - intros s q Hq. destruct q; try discriminate; cbn [pg_step].
      + destruct (at_step keqb (pg_lexicon s) p0). split; reflexivity.
      + split; reflexivity.
      + destruct (ci_step (pg_integers s) p0). split; reflexivity.
    - intros []; reflexivity.
    - intros [] a H; try discriminate; reflexivity.
    - exists la, lb, sched'. cbv zeta. cbn [pg_dictionary] in *. assert (ER : forall s, reading U d (map snd la) (map snd lb) s =
        run_threads (mx_step U) (d, map (fun x => inl (aw_start (snd x))) la ++ map (fun x => inr (reader_start (snd x))) lb) s) by (intros s; unfold reading, mx_run; rewrite !map_map; reflexivity).
      assert (Sd := fun n => sides (mx_step U) (fun s a => ltac:(cbn [mx_step]; destruct (aw_step U s a) as [s' a']; exists a'; reflexivity)) (fun s b => ex_intro _ (rd_step U s b) eq_refl)
        (d, map (fun x => inl (aw_start (snd x))) la ++ map (fun x => inr (reader_start (snd x))) lb) sched' n).
      split; [exact H1|]. split; [exact H2|]. split; [unfold dictionary_at; rewrite ER; exact H3|]. split; [|split; [|split; [|split]]].
      + intros n [i k] w Hn. destruct (H4 n i k w Hn) as (q & s & p' & E1 & E2 & E3 & E4). destruct q; try discriminate. injection E1 as ->. rewrite ER.
        destruct (proj1 (Sd n) (aw_start w)) as [a' Z]; [cbn [snd]; rewrite nth_error_app1 by (rewrite map_length; apply nth_error_Some; congruence); rewrite nth_error_map, Hn; reflexivity|].
        rewrite Z in E4 |- *. injection E4 as <-. destruct s; try discriminate. injection E3 as ->. exists a'. split; [exact E2|reflexivity].
      + intros n [i k] r Hn. destruct (H5 n i k r Hn) as (q & s & p' & E1 & E2 & E3 & E4). destruct q; try discriminate. injection E1 as ->. unfold answered. rewrite ER, map_length.
        destruct (proj2 (Sd (length la + n)) (reader_start r)) as [a' Z]; [cbn [snd]; rewrite nth_error_app2 by (rewrite map_length; lia); rewrite map_length; replace (length la + n - length la) with n by lia; rewrite nth_error_map, Hn; reflexivity|].
        rewrite Z in E4 |- *. injection E4 as <-. destruct s; try discriminate. injection E3 as ->. exists a'. split; [exact E2|reflexivity].
      + intros [i k] w s Hm. eapply (H6 i k _ s); [exact Hm|reflexivity].
      + intros [i k] r s Hm. eapply (H7 i k _ s); [exact Hm|reflexivity].
      + intros D (a & b & E & ->). destruct (H8 a b E) as (s1 & s2 & E' & G). exists s1, s2. split; [exact E'|]. rewrite ER. exact G.
  Qed.

  (** ** the lexicon *)
  Definition ask_template (q : request) : option (lx_call K template R) := match q with Q_add_template w => Some w | _ => None end.
  Definition ask_lexicon (q : request) : option (lexicon_reader K R) := match q with Q_lexicon r => Some r | _ => None end.
  Definition pick_lexicon (p : pg_call K R) : option (at_pc K template R + lr_pc K template R) := match p with PG_template x => Some (inl x) | PG_lexicon x => Some (inr x) | _ => None end.
  Theorem C91_lexicon : forall l d c p schedule, exists writers readers sched',
    let cs := map snd writers in let rs := map snd readers in
    NoDup (map fst writers) /\ NoDup (map fst readers) /\
    lexicon_then keqb reqb U l d c p schedule = lexicon_at keqb reqb l cs rs sched' /\
    (forall n x w, nth_error writers n = Some (x, w) -> exists pc, call_made l d c p schedule x (Q_add_template w) (PG_template pc) /\ nth_error (snd (reading_templates keqb reqb l cs rs sched')) n = Some (inl pc)) /\
    (forall n x r, nth_error readers n = Some (x, r) -> exists pc, call_made l d c p schedule x (Q_lexicon r) (PG_lexicon pc) /\ nth_error (snd (reading_templates keqb reqb l cs rs sched')) (length cs + n) = Some (inr pc)) /\
    (forall x w s, call_made l d c p schedule x (Q_add_template w) s -> In (x, w) writers) /\
    (forall x r s, call_made l d c p schedule x (Q_lexicon r) s -> In (x, r) readers) /\
    (forall a b, sched' = a ++ b -> exists s1 s2, schedule = s1 ++ s2 /\ lexicon_at keqb reqb l cs rs a = lexicon_then keqb reqb U l d c p s1).
  Proof.
    intros l d c p schedule.
    destruct (parts (pg_step keqb reqb U) pg_start pg_returned (lm_step keqb reqb) pg_lexicon pick_lexicon ask_template ask_lexicon (fun w => inl (AT_test w)) (fun r => inr (lr_start (query r)))) with
      (strats := p) (s0 := {| pg_lexicon := lx_of l; pg_dictionary := d; pg_integers := c |}) (sched := schedule) as (la & lb & sched' & H1 & H2 & H3 & H4 & H5 & H6 & H7 & H8).
    - intros s q x Hq. destruct q; try discriminate; injection Hq as <-; cbn [pg_step lm_step].
      + destruct (at_step keqb (pg_lexicon s) p0) as [d' p']. split; reflexivity.
      + split; reflexivity.
    - intros s q Hq. destruct q; try discriminate; cbn [pg_step].
      + destruct (aw_step U (pg_dictionary s) p0). split; reflexivity.
      + split; reflexivity.
      + destruct (ci_step (pg_integers s) p0). split; reflexivity.
    - intros []; reflexivity.
    - intros [] a H; try discriminate; reflexivity.
    - exists la, lb, sched'. cbv zeta. cbn [pg_lexicon] in *. assert (ER : forall s, reading_templates keqb reqb l (map snd la) (map snd lb) s =
        run_threads (lm_step keqb reqb) (lx_of l, map (fun x => inl (AT_test (snd x))) la ++ map (fun x => inr (lr_start (query (snd x)))) lb) s) by (intros s; unfold reading_templates, lm_run; rewrite !map_map; reflexivity).
      assert (Sd := fun n => sides (lm_step (T := template) keqb reqb) (fun s a => ltac:(cbn [lm_step]; destruct (at_step keqb s a) as [s' a']; exists a'; reflexivity)) (fun s b => ex_intro _ (lr_step keqb reqb s b) eq_refl)
        (lx_of l, map (fun x => inl (AT_test (snd x))) la ++ map (fun x => inr (lr_start (query (snd x)))) lb) sched' n).
      split; [exact H1|]. split; [exact H2|]. split; [unfold lexicon_then, lexicon_at; rewrite ER; f_equal; exact H3|]. split; [|split; [|split; [|split]]].
      + intros n [i k] w Hn. destruct (H4 n i k w Hn) as (q & s & p' & E1 & E2 & E3 & E4). destruct q; try discriminate. injection E1 as ->. rewrite ER.
        destruct (proj1 (Sd n) (AT_test w)) as [a' Z]; [cbn [snd]; rewrite nth_error_app1 by (rewrite map_length; apply nth_error_Some; congruence); rewrite nth_error_map, Hn; reflexivity|].
        rewrite Z in E4 |- *. injection E4 as <-. destruct s; try discriminate. injection E3 as ->. exists a'. split; [exact E2|reflexivity].
      + intros n [i k] r Hn. destruct (H5 n i k r Hn) as (q & s & p' & E1 & E2 & E3 & E4). destruct q; try discriminate. injection E1 as ->. rewrite ER, map_length.
        destruct (proj2 (Sd (length la + n)) (lr_start (query r))) as [a' Z]; [cbn [snd]; rewrite nth_error_app2 by (rewrite map_length; lia); rewrite map_length; replace (length la + n - length la) with n by lia; rewrite nth_error_map, Hn; reflexivity|].
        rewrite Z in E4 |- *. injection E4 as <-. destruct s; try discriminate. injection E3 as ->. exists a'. split; [exact E2|reflexivity].
      + intros [i k] w s Hm. eapply (H6 i k _ s); [exact Hm|reflexivity].
      + intros [i k] r s Hm. eapply (H7 i k _ s); [exact Hm|reflexivity].
      + intros a b E. destruct (H8 a b E) as (s1 & s2 & E' & G). exists s1, s2. split; [exact E'|]. unfold lexicon_at, lexicon_then. rewrite ER. f_equal. exact G.
  Qed.

  (** ** the integers *)
  Definition ask_integer (q : request) : option Z := match q with Q_integer n => Some n | _ => None end.
  Definition pick_integer (p : pg_call K R) : option ci_pc := match p with PG_integer x => Some x | _ => None end.
  Theorem C91_integer : forall l d c p schedule calls x n m r, after_calls calls c ->
    call_made l d c p schedule x (Q_integer n) (PG_integer (CI_done m r)) -> r = construct_integer_raw n /\ exists f, r = Ok f.
  Proof.
    intros l d c p schedule calls [i k] n m r Hc Hm.
    destruct (parts (B := Empty_set) (pg_step keqb reqb U) pg_start pg_returned ci_step pg_integers pick_integer ask_integer (fun _ => None) CI_start (fun e => match e with end)) with
      (strats := p) (s0 := {| pg_lexicon := lx_of l; pg_dictionary := d; pg_integers := c |}) (sched := schedule) as (la & lb & sched' & H1 & H2 & H3 & H4 & H5 & H6 & H7 & H8).
    - intros s q x Hq. destruct q; try discriminate; injection Hq as <-; cbn [pg_step]. destruct (ci_step (pg_integers s) p0) as [d' p']. split; reflexivity.
    - intros s q Hq. destruct q; try discriminate; cbn [pg_step].
      + destruct (aw_step U (pg_dictionary s) p0). split; reflexivity.
      + destruct (at_step keqb (pg_lexicon s) p0). split; reflexivity.
      + split; reflexivity.
      + split; reflexivity.
    - intros []; reflexivity.
    - intros; reflexivity.
    - cbn [pg_integers] in *. assert (Hin := H6 i k _ _ n Hm eq_refl). apply In_nth_error in Hin as [j Hj]. destruct (H4 _ _ _ _ Hj) as (q & s & p' & E1 & E2 & E3 & E4). destruct q; try discriminate. injection E1 as ->.
      destruct Hm as (w & Hw & Hk & Hq). destruct E2 as (w' & Hw' & Hk' & Hq'). cbn [fst snd] in *. unfold running in Hw. unfold pg_run in Hw. rewrite Hw in Hw'. injection Hw' as <-. rewrite Hk in Hk'. injection Hk' as <-. injection E3 as <-.
      destruct lb as [|[? []] ?]. cbn [map] in E4. rewrite app_nil_r in E4. rewrite <- map_map in E4. destruct (C47_schedules calls c (map snd la) sched' j m r Hc E4) as (G1 & G2 & G3).
      rewrite nth_error_map, Hj in G1. injection G1 as <-. split; assumption.
  Qed.

  (** ** what the calls return *)
  Lemma made_one l d c p schedule x q q' s s' : call_made l d c p schedule x q s -> call_made l d c p schedule x q' s' -> q = q' /\ s = s'.
  Proof. intros (w & Hw & Hk & Hq) (w' & Hw' & Hk' & Hq'). rewrite Hw in Hw'. injection Hw' as <-. rewrite Hk in Hk'. rewrite Hq in Hq'. split; congruence. Qed.

  (** an add_word call returns or raises as it would alone, and from then on its texts are known *)
  Theorem C91_add_word : forall l ws0 c p schedule x w r, Forall is_word ws0 ->
    (forall y v s, call_made l (after U ws0) c p schedule y (Q_add_word v) s -> is_word v) ->
    call_made l (after U ws0) c p schedule x (Q_add_word w) (PG_word (AW_done r)) ->
    (forall ws', Forall is_word ws' -> r = snd (add_word U (after U ws') w)) /\
    forall t, writes U w t -> has_word (dictionary_at l (after U ws0) c p schedule) t = true.
  Proof.
    intros l ws0 c p sched x w r H0 Hw Hm. destruct (C91_dictionary l (after U ws0) c p sched) as (writers & readers & sched' & N1 & N2 & E & M1 & M2 & A1 & A2 & _). cbv zeta in *.
    assert (Ws : Forall is_word (map snd writers)).
    { apply Forall_forall. intros v Hv. apply in_map_iff in Hv as ([y v'] & <- & Hv). apply In_nth_error in Hv as [n Hn]. destruct (M1 n y v' Hn) as (pc & G & _). exact (Hw _ _ _ G). }
    assert (Hin := A1 _ _ _ Hm). apply In_nth_error in Hin as [n Hn]. destruct (M1 n x w Hn) as (pc & G & T). destruct (made_one _ _ _ _ _ _ _ _ _ _ Hm G) as [_ Epc]. injection Epc as <-.
    destruct (C72_writers_undisturbed U (after U ws0) (map snd writers) (map snd readers) sched') as [U1 U2].
    assert (Ln : n < length (map snd writers)) by (rewrite map_length; apply nth_error_Some; congruence).
    rewrite (U2 n Ln) in T. rewrite E, U1. set (alone := filter _ sched') in *.
    destruct (nth_error (snd (adding U (after U ws0) (map snd writers) alone)) n) as [y|] eqn:Ey; [|discriminate]. injection T as ->.
    apply (C69_finished_call U ws0 (map snd writers) alone n w r H0 Ws); [rewrite nth_error_map, Hn; reflexivity|exact Ey].
  Qed.
  (** the other way round: a text that is known was known before or belongs to a word that was asked for; the answer for it is
      one of the word forms of those words *)
  Theorem C91_answers_are_genuine : forall l ws0 c p schedule t f, Forall is_word ws0 ->
    (forall y v s, call_made l (after U ws0) c p schedule y (Q_add_word v) s -> is_word v) ->
    get_word (dictionary_at l (after U ws0) c p schedule) t = Ok f ->
    wf_form U f = Ok t /\ (get_word (after U ws0) t = Ok f \/ exists x w s lw, call_made l (after U ws0) c p schedule x (Q_add_word w) s /\ registers U w lw /\ In f lw).
  Proof.
    intros l ws0 c p sched t f H0 Hw Hg. destruct (C91_dictionary l (after U ws0) c p sched) as (writers & readers & sched' & N1 & N2 & E & M1 & M2 & A1 & A2 & _). cbv zeta in *.
    assert (Ws : Forall is_word (map snd writers)).
    { apply Forall_forall. intros v Hv. apply in_map_iff in Hv as ([y v'] & <- & Hv). apply In_nth_error in Hv as [n Hn]. destruct (M1 n y v' Hn) as (pc & G & _). exact (Hw _ _ _ G). }
    destruct (C72_writers_undisturbed U (after U ws0) (map snd writers) (map snd readers) sched') as [U1 _]. rewrite E, U1 in Hg.
    destruct (C69_answers_are_genuine U ws0 (map snd writers) _ t f H0 Ws Hg) as [G1 [G2|(w & lw & G2 & G3 & G4)]]; (split; [exact G1|]); [left; exact G2|right].
    apply in_map_iff in G2 as ([y v] & <- & G2). apply In_nth_error in G2 as [n Hn]. destruct (M1 n y v Hn) as (pc & G & _). exists y, v, (PG_word pc), lw. auto.
  Qed.
  (** substitute returns the literals and, for each variable, what it prints at some moment of the program; or the error of one
      variable at some moment *)
  Theorem C91_substitute : forall text ext0 t literals variables ext l d c p schedule x r,
    parse_template U new_template text ext0 = (t, Ok tt) -> cuts text literals variables ->
    call_made l d c p schedule x (Q_dictionary (Substitute t ext)) (PG_dictionary (RD_text r)) ->
    (exists texts, r = Ok (weave literals texts) /\
       Forall2 (fun s y => exists s1 s2, schedule = s1 ++ s2 /\ get_text U s ext (dictionary_at l d c p s1) = Ok y) (t_subs t) texts) \/
    (exists s s1 s2 e, In s (t_subs t) /\ schedule = s1 ++ s2 /\ get_text U s ext (dictionary_at l d c p s1) = Err e /\ r = Err e).
  Proof.
    intros text ext0 t ls vs ext l d c p sched x r Hp Hc Hm. destruct (C91_dictionary l d c p sched) as (writers & readers & sched' & N1 & N2 & E & M1 & M2 & A1 & A2 & Mo). cbv zeta in *.
    assert (Hin := A2 _ _ _ Hm). apply In_nth_error in Hin as [n Hn]. destruct (M2 n x _ Hn) as (pc & G & T). destruct (made_one _ _ _ _ _ _ _ _ _ _ Hm G) as [_ Epc]. injection Epc as <-.
    destruct (C72_substitute U text ext0 t ls vs ext d (map snd writers) (map snd readers) sched' n r Hp Hc) as [(texts & -> & F)|(s & D & e & Hs & HD & He & ->)].
    - rewrite nth_error_map, Hn. reflexivity.
    - exact T.
    - left. exists texts. split; [reflexivity|]. eapply Forall2_impl'; [|exact F]. intros s y (D & HD & HE). destruct (Mo D HD) as (s1 & s2 & Es & ->). exists s1, s2. split; assumption.
    - right. destruct (Mo D HD) as (s1 & s2 & Es & ->). exists s, s1, s2, e. auto.
  Qed.
  (** get_undictionaried_words misses nothing that is still missing at the end and names nothing that was known at the start *)
  Theorem C91_undictionaried : forall t ext l d c p schedule x ids,
    call_made l d c p schedule x (Q_dictionary (Undictionaried t ext)) (PG_dictionary (RD_found ids)) ->
    incl (get_undictionaried_words t ext (dictionary_at l d c p schedule)) ids /\ incl ids (get_undictionaried_words t ext d).
  Proof.
    intros t ext l d c p sched x ids Hm. destruct (C91_dictionary l d c p sched) as (writers & readers & sched' & N1 & N2 & E & M1 & M2 & A1 & A2 & Mo). cbv zeta in *.
    assert (Hin := A2 _ _ _ Hm). apply In_nth_error in Hin as [n Hn]. destruct (M2 n x _ Hn) as (pc & G & T). destruct (made_one _ _ _ _ _ _ _ _ _ _ Hm G) as [_ Epc]. injection Epc as <-.
    rewrite E. apply (C72_undictionaried U t ext d (map snd writers) (map snd readers) sched' n ids); [rewrite nth_error_map, Hn; reflexivity|exact T].
  Qed.
  (** a selection answers as if some of the add_template calls for its key, all of them over by now, had been made one after the other *)
  Theorem C91_selection : forall h d c p schedule x r a,
    call_made (lex_after keqb h) d c p schedule x (Q_lexicon r) (PG_lexicon (LR_answer a)) ->
    exists ids cs, NoDup ids /\
      Forall2 (fun y call => fst (fst call) = asks_for r /\ exists e, call_made (lex_after keqb h) d c p schedule y (Q_add_template call) (PG_template (AT_done e (Ok tt)))) ids cs /\
      (a = sequential_answer keqb reqb (lex_after keqb (h ++ cs)) r \/ a = Single (Err NoTemplatesWithSpecifiedRestrictions) /\ cs = []).
  Proof.
    intros h d c p sched x r a Hm. destruct (C91_lexicon (lex_after keqb h) d c p sched) as (writers & readers & sched' & N1 & N2 & E & M1 & M2 & A1 & A2 & Mo). cbv zeta in *.
    assert (Hin := A2 _ _ _ Hm). apply In_nth_error in Hin as [n Hn]. destruct (M2 n x _ Hn) as (pc & G & T). destruct (made_one _ _ _ _ _ _ _ _ _ _ Hm G) as [_ Epc]. injection Epc as <-.
    destruct (C73_some_of_the_calls keqb reqb keqb_ok h (map snd writers) (map snd readers) sched' n r a) as (s1 & s2 & ids & cs & Es & D & F & Ha); [rewrite nth_error_map, Hn; reflexivity|exact T|].
    assert (Fi : forall i call, nth_error (map snd writers) i = Some call /\ fst (fst call) = asks_for r /\ call_returned keqb reqb (lex_after keqb h) (map snd writers) (map snd readers) s1 i ->
      exists y, nth_error writers i = Some (y, call) /\ fst (fst call) = asks_for r /\ exists e, call_made (lex_after keqb h) d c p sched y (Q_add_template call) (PG_template (AT_done e (Ok tt)))).
    { intros i call (Hi & Hk & e & Hr). rewrite nth_error_map in Hi. destruct (nth_error writers i) as [[y call']|] eqn:Ei; [|discriminate]. injection Hi as ->. exists y. split; [reflexivity|]. split; [exact Hk|]. exists e.
      destruct (M1 i y call Ei) as (pc & G' & T'). assert (X : pc = AT_done e (Ok tt)); [|subst pc; exact G'].
      rewrite Es in T'. unfold reading_templates, lm_run in T', Hr. rewrite run_app in T'. revert T' Hr. generalize (run_threads (lm_step keqb reqb) (lx_of (lex_after keqb h), map (fun c0 => inl (AT_test c0)) (map snd writers) ++ map (fun r0 => inr (lr_start (query r0))) (map snd readers)) s1).
      intros st T' Hr. assert (Z : nth_error (snd (run_threads (lm_step keqb reqb) st ((length (map snd writers) + n) :: s2))) i = Some (inl (AT_done e (Ok tt)))).
      { apply (run_invariant (lm_step keqb reqb) (fun st => nth_error (snd st) i = Some (inl (AT_done e (Ok tt))))); [|exact Hr]. clear. intros st j Hj. unfold step_at. destruct (nth_error (snd st) j) as [q|] eqn:Ej; [|exact Hj].
        destruct (lm_step keqb reqb (fst st) q) as [u v] eqn:Eq. cbn [snd]. destruct (Nat.eq_dec i j) as [->|N]; [|rewrite (set_other _ _ _ _ _ Ej N); exact Hj]. rewrite Hj in Ej. injection Ej as <-. cbn in Eq. injection Eq as <- <-. apply (set_same _ _ _ _ Hj). }
      congruence. }
    clear - N1 D F Ha Fi. assert (X : exists ys, NoDup ys /\ Forall2 (fun y call => fst (fst call) = asks_for r /\ exists e, call_made (lex_after keqb h) d c p sched y (Q_add_template call) (PG_template (AT_done e (Ok tt)))) ys cs /\
      forall y, In y ys -> exists i call, In i ids /\ nth_error writers i = Some (y, call)).
    { clear Ha. revert D. induction F as [|i call ids cs Hi F IH]; intro D; [exists []; split; [constructor|]; split; [constructor|intros y []]|]. inversion D as [|? ? Ni Di]; subst. destruct (IH Di) as (ys & Y1 & Y2 & Y3).
      destruct (Fi i call Hi) as (y & Hy & Hk & He). exists (y :: ys). split; [|split].
      - constructor; [|exact Y1]. intros Hin. destruct (Y3 y Hin) as (j & call' & Hj & Hc). assert (i = j) by (eapply (nodup_nth fst); eauto). subst j. contradiction.
      - constructor; [split; [exact Hk|exact He]|exact Y2].
      - intros z [<-|Hz]; [exists i, call; split; [left; reflexivity|exact Hy]|]. destruct (Y3 z Hz) as (j & call' & Hj & Hc). exists j, call'. split; [right; exact Hj|exact Hc]. }
    destruct X as (ys & Y1 & Y2 & _). exists ys, cs. auto.
  Qed.
  (** a text that is known stays known *)
  Theorem C91_never_forgets : forall l d c p s1 s2 t, has_word (dictionary_at l d c p s1) t = true -> has_word (dictionary_at l d c p (s1 ++ s2)) t = true.
  Proof.
    intros l d c p s1 s2 t. unfold dictionary_at, running, pg_run, wk_run. rewrite run_app. generalize (run_threads (wk_step (pg_step keqb reqb U) pg_start pg_returned) ({| pg_lexicon := lx_of l; pg_dictionary := d; pg_integers := c |}, map new_worker p) s1).
    intros st H. apply (run_invariant _ (fun st => has_word (pg_dictionary (fst st)) t = true)); [|exact H]. clear. intros st i H. unfold step_at. destruct (nth_error (snd st) i) as [w|]; [|exact H].
    unfold wk_step. destruct (wk_current w) as [q|]; [|exact H]. destruct (pg_returned q); [exact H|]. destruct q as [q|q|q|q|q]; cbn [pg_step]; try exact H.
    - assert (G := grows_aw U (pg_dictionary (fst st)) q). destruct (aw_step U (pg_dictionary (fst st)) q). cbn [fst pg_dictionary] in *. eapply grows_has; eassumption.
    - destruct (at_step keqb (pg_lexicon (fst st)) q). exact H.
    - destruct (ci_step (pg_integers (fst st)) q). exact H.
  Qed.
  (** get_words: every word returned was in the dictionary at some moment; every text known at the start is represented; no word twice *)
  Theorem C91_get_words : forall l ws0 c p schedule x words, Forall is_word ws0 ->
    (forall y v s, call_made l (after U ws0) c p schedule y (Q_add_word v) s -> is_word v) ->
    call_made l (after U ws0) c p schedule x (Q_dictionary Words) (PG_dictionary (RD_set words)) ->
    (forall w, In w words -> exists s1 s2 t f, schedule = s1 ++ s2 /\ get_word (dictionary_at l (after U ws0) c p s1) t = Ok f /\ wf_word f = w) /\
    (forall t, has_word (after U ws0) t = true -> exists s1 s2 f w, schedule = s1 ++ s2 /\ get_word (dictionary_at l (after U ws0) c p s1) t = Ok f /\ In w words /\ same_word w (wf_word f)) /\
    (forall l1 a l2 b l3, words = l1 ++ a :: l2 ++ b :: l3 -> ~ same_word a b).
  Proof.
    intros l ws0 c p sched x words H0 Hw Hm. destruct (C91_dictionary l (after U ws0) c p sched) as (writers & readers & sched' & N1 & N2 & E & M1 & M2 & A1 & A2 & Mo). cbv zeta in *.
    assert (Ws : Forall is_word (map snd writers)).
    { apply Forall_forall. intros v Hv. apply in_map_iff in Hv as ([y v'] & <- & Hv). apply In_nth_error in Hv as [n Hn]. destruct (M1 n y v' Hn) as (pc & G & _). exact (Hw _ _ _ G). }
    assert (Hin := A2 _ _ _ Hm). apply In_nth_error in Hin as [n Hn]. destruct (M2 n x _ Hn) as (pc & G & T). destruct (made_one _ _ _ _ _ _ _ _ _ _ Hm G) as [_ Epc]. injection Epc as <-.
    destruct (C72_get_words U (after U ws0) (map snd writers) (map snd readers) sched' n words) as (G1 & G2 & G3); [apply is_dictionary_after; exact H0|exact Ws|rewrite nth_error_map, Hn; reflexivity|exact T|].
    split; [|split; [|exact G3]].
    - intros w Hin. destruct (G1 w Hin) as (D & t & f & HD & Hg & Hf). destruct (Mo D HD) as (s1 & s2 & Es & ->). exists s1, s2, t, f. auto.
    - intros t Ht. destruct (G2 t Ht) as (D & f & w & HD & Hg & Hi & Hs). destruct (Mo D HD) as (s1 & s2 & Es & ->). exists s1, s2, f, w. auto.
  Qed.
  (** add_template never raises *)
  Theorem C91_add_template : forall h d c p schedule x call e r,
    call_made (lex_after keqb h) d c p schedule x (Q_add_template call) (PG_template (AT_done e r)) -> r = Ok tt.
  Proof.
    intros h d c p sched x call e r Hm. destruct (C91_lexicon (lex_after keqb h) d c p sched) as (writers & readers & sched' & N1 & N2 & E & M1 & M2 & A1 & A2 & Mo). cbv zeta in *.
    assert (Hin := A1 _ _ _ Hm). apply In_nth_error in Hin as [n Hn]. destruct (M1 n x _ Hn) as (pc & G & T). destruct (made_one _ _ _ _ _ _ _ _ _ _ Hm G) as [_ Epc]. injection Epc as <-.
    destruct (C73_writers_undisturbed keqb reqb (lex_after keqb h) (map snd writers) (map snd readers) sched') as [_ U2]. assert (Ln : n < length (map snd writers)) by (rewrite map_length; apply nth_error_Some; congruence).
    rewrite (U2 n Ln) in T. eapply (C70_never_raises keqb keqb_ok h (map snd writers) _ n r). exists e. destruct (nth_error _ n) as [y|] eqn:Ey in T; [|discriminate]. injection T as ->. exact Ey.
  Qed.
  (** for a key that was known at the start, or that at most one call asks for, the lexicon holds the templates of exactly the
      calls that are over, in some order *)
  Theorem C91_templates : forall h d c p schedule key,
    has_key keqb (lex_after keqb h) key = true \/
    (forall x y cx cy sx sy, call_made (lex_after keqb h) d c p schedule x (Q_add_template cx) sx -> call_made (lex_after keqb h) d c p schedule y (Q_add_template cy) sy ->
       fst (fst cx) = key -> fst (fst cy) = key -> x = y) ->
    exists ids cs, NoDup ids /\
      Forall2 (fun y call => fst (fst call) = key /\ exists e, call_made (lex_after keqb h) d c p schedule y (Q_add_template call) (PG_template (AT_done e (Ok tt)))) ids cs /\
      (forall y call e r, call_made (lex_after keqb h) d c p schedule y (Q_add_template call) (PG_template (AT_done e r)) -> fst (fst call) = key -> In y ids) /\
      same_answers keqb reqb key (lexicon_then keqb reqb U (lex_after keqb h) d c p schedule) (lex_after keqb (h ++ cs)).
  Proof.
    intros h d c p sched key Hk. destruct (C91_lexicon (lex_after keqb h) d c p sched) as (writers & readers & sched' & N1 & N2 & E & M1 & M2 & A1 & A2 & Mo). cbv zeta in *.
    destruct (C73_writers_undisturbed keqb reqb (lex_after keqb h) (map snd writers) (map snd readers) sched') as [U1 U2].
    set (alone := filter _ sched') in *.
    destruct (C70_nothing_lost keqb reqb keqb_ok h (map snd writers) alone key) as (ids & cs & D & F & In1 & Same).
    { destruct Hk as [Hk|Hk]; [left; exact Hk|right]. intros i j ci cj Hi Hj Ki Kj. rewrite nth_error_map in Hi, Hj. destruct (nth_error writers i) as [[x cx]|] eqn:Ei; [|discriminate]. destruct (nth_error writers j) as [[y cy]|] eqn:Ej; [|discriminate].
      injection Hi as ->. injection Hj as ->. destruct (M1 _ _ _ Ei) as (px & Px & _), (M1 _ _ _ Ej) as (py & Py & _). assert (x = y) by (eapply Hk; eassumption). subst y. eapply (nodup_nth fst); [exact N1|exact Ei|exact Ej|reflexivity]. }
    set (wid := fun i => match nth_error writers i with Some (y, _) => y | None => (0, 0) end).
    assert (Endd : forall i x call, nth_error writers i = Some (x, call) -> ended keqb (lex_after keqb h) (map snd writers) alone i (Ok tt) -> exists e, call_made (lex_after keqb h) d c p sched x (Q_add_template call) (PG_template (AT_done e (Ok tt)))).
    { intros i x call Hi [e He]. destruct (M1 i x call Hi) as (pc & G & T). rewrite U2 in T by (rewrite map_length; apply nth_error_Some; congruence). rewrite He in T. injection T as <-. exists e. exact G. }
    exists (map wid ids), cs. split; [|split; [|split]].
    - assert (Hi : forall i, In i ids -> exists x, nth_error writers i = Some x) by (intros i Hi; apply In1 in Hi as (_ & call & Hi & _); rewrite nth_error_map in Hi; destruct (nth_error writers i); [eauto|discriminate]).
      clear - D Hi N1. induction D as [|i ids Ni D IH]; [constructor|]. cbn [map]. constructor; [|apply IH; intros; apply Hi; right; assumption]. intros X. apply in_map_iff in X as (j & Ej & Hj).
      destruct (Hi i (or_introl eq_refl)) as [[x cx] Ei], (Hi j (or_intror Hj)) as [[y cy] Ey]. unfold wid in Ej. rewrite Ei, Ey in Ej. apply Ni. replace i with j; [exact Hj|]. eapply (nodup_nth fst); [exact N1|exact Ey|exact Ei|exact Ej].
    - assert (Hi : forall i, In i ids -> ended keqb (lex_after keqb h) (map snd writers) alone i (Ok tt) /\ exists call, nth_error (map snd writers) i = Some call /\ fst (fst call) = key) by (intros i Hi; apply In1 in Hi; exact Hi).
      clear - F Hi Endd. induction F as [|i call ids cs Hc F IH]; [constructor|]. cbn [map]. constructor; [|apply IH; intros; apply Hi; right; assumption].
      destruct (Hi i (or_introl eq_refl)) as (He & call' & Hc' & Hk). rewrite Hc in Hc'. injection Hc' as <-. split; [exact Hk|]. rewrite nth_error_map in Hc. unfold wid. destruct (nth_error writers i) as [[x cx]|] eqn:Ei; [|discriminate]. injection Hc as ->. eapply Endd; eassumption.
    - intros y call e r Hm Hkey. assert (Hin := A1 _ _ _ Hm). apply In_nth_error in Hin as [n Hn]. assert (r = Ok tt) by (eapply C91_add_template; exact Hm). subst r. apply in_map_iff. exists n. split; [unfold wid; rewrite Hn; reflexivity|].
      apply In1. split; [|exists call; rewrite nth_error_map, Hn; split; [reflexivity|exact Hkey]]. destruct (M1 n y call Hn) as (pc & G & T). destruct (made_one _ _ _ _ _ _ _ _ _ _ Hm G) as [_ Epc]. injection Epc as <-.
      rewrite U2 in T by (rewrite map_length; apply nth_error_Some; congruence). exists e. destruct (nth_error _ n) as [z|] eqn:Ez in T; [|discriminate]. injection T as ->. exact Ez.
    - rewrite E. replace (lexicon_at keqb reqb (lex_after keqb h) (map snd writers) (map snd readers) sched') with (seen keqb (lex_after keqb h) (map snd writers) alone); [exact Same|]. unfold seen, lexicon_at. rewrite U1. reflexivity.
  Qed.

  (** every call returns or raises after a number of moves of its thread that depends only on the call and on how much is stored *)
  Definition left_to_do (n : nat) (s : pg_call K R) : nat :=
    match s with
    | PG_word (AW_next fs) => 3 * length fs + 1 | PG_word (AW_insert _ _ r) => 3 * length r + 2 | PG_word (AW_read _ _ r) => 3 * length r + 3 | PG_word (AW_replace _ _ r) => 3 * length r + 2 | PG_word (AW_done _) => 0
    | PG_template (AT_test _) => 4 | PG_template (AT_create _) => 3 | PG_template (AT_load _) => 2 | PG_template (AT_append _ _) => 1 | PG_template (AT_done _ _) => 0
    | PG_dictionary (RD_substitute _ _ _ rest) => 1 + length rest | PG_dictionary (RD_missing _ _ rest) => 1 + length rest
    | PG_dictionary RD_values => n + 2 | PG_dictionary (RD_words size position _) => 1 + (size - position) | PG_dictionary _ => 0
    | PG_lexicon (LR_test _) => n + 3 | PG_lexicon (LR_get _) => n + 2 | PG_lexicon (LR_templates _ _ position _) => 1 + (n - position) | PG_lexicon (LR_nearest _ _ position _) => 1 + (n - position) | PG_lexicon (LR_answer _) => 0
    | PG_integer c => pc_left c
    end.
  Lemma concat_set (l : list (list (template * list R))) r x : length (concat l) <= length (concat (list_set r (nth r l [] ++ [x]) l)).
  Proof. revert r. induction l as [|a l IH]; intros [|r]; cbn; rewrite ?app_length; [lia|lia|cbn; lia|specialize (IH r); lia]. Qed.
  Lemma concat_nth (l : list (list (template * list R))) r : length (nth r l []) <= length (concat l).
  Proof. revert r. induction l as [|a l IH]; intros [|r]; cbn; rewrite ?app_length; [lia|lia|lia|specialize (IH r); lia]. Qed.
  Theorem C91_progress : forall l d c p s1 s2 x q s, call_made l d c p s1 x q s ->
    moves_needed (stored (fst (running l d c p (s1 ++ s2)))) q <= moves (fst x) s2 ->
    exists s', call_made l d c p (s1 ++ s2) x q s' /\ pg_returned s' = true.
  Proof.
    intros l d c p s1 s2 [i k] q s Hm Hn.
    apply (wait_free (pg_step keqb reqb U) pg_start pg_returned stored left_to_do moves_needed) with (p := s); try assumption.
    - intros st pc. unfold stored. destruct pc as [pc|pc|pc|pc|pc]; cbn [pg_step]; try (cbn; lia).
      + assert (G := grows_length _ _ (grows_aw U (pg_dictionary st) pc)). destruct (aw_step U (pg_dictionary st) pc). cbn [fst pg_dictionary pg_lexicon] in *. lia.
      + destruct pc as [e|e|e|e r|e r]; cbn [at_step fst pg_dictionary pg_lexicon lx_lists]; try lia.
        * rewrite concat_app, app_length. lia.
        * assert (G := concat_set (lx_lists (pg_lexicon st)) r (lc_item e)). lia.
      + destruct (ci_step (pg_integers st) pc). cbn. lia.
    - intros n st pc Hs. unfold stored in Hs. destruct pc as [pc|pc|pc|pc|pc]; cbn [pg_step].
      + destruct pc as [[|f fs]|f t rest|f t rest|f t rest|r]; cbn [aw_step snd left_to_do length]; try lia.
        * destruct (wf_form U f) as [t|e]; [|cbn [left_to_do]; lia]. destruct (dmem str_eqb t _); cbn [left_to_do]; lia.
        * destruct (dget str_eqb t _) as [r|]; [|cbn [left_to_do]; lia]. destruct (replaces f r); cbn [left_to_do]; lia.
      + destruct pc as [e|e|e|e r|e r]; cbn [at_step snd left_to_do]; try lia.
        * destruct (dmem keqb _ _); cbn [left_to_do]; lia.
        * destruct (dget keqb _ _); cbn [left_to_do]; lia.
      + destruct pc as [t ext texts [|v rest]|r|ext found [|v rest]|ids| |size position words|words|]; cbn [rd_step snd left_to_do length]; try lia.
        * destruct (get_text U v ext _); cbn [left_to_do]; lia.
        * destruct (Nat.eqb_spec (length (pg_dictionary st)) size) as [E|E]; [|cbn [left_to_do]; lia]. destruct (nth_error (pg_dictionary st) position) as [[t f]|] eqn:En; cbn [left_to_do]; [|lia].
          assert (position < length (pg_dictionary st)) by (apply nth_error_Some; congruence). lia.
      + assert (B : forall r pos y, nth_error (nth r (lx_lists (pg_lexicon st)) []) pos = Some y -> pos < n).
        { intros r pos y Hy. assert (pos < length (nth r (lx_lists (pg_lexicon st)) [])) by (apply nth_error_Some; congruence). assert (G := concat_nth (lx_lists (pg_lexicon st)) r). lia. }
        destruct pc as [e|e|e r pos acc|e r pos acc|a]; cbn [lr_step snd]; try (cbn [left_to_do]; lia).
        * destruct (negb _); cbn [left_to_do]; lia.
        * destruct (dget keqb _ _) as [r|]; [destruct (q_nearest e)|]; unfold lr_finish; cbn [left_to_do]; lia.
        * destruct (nth_error _ pos) as [y|] eqn:En; unfold lr_finish; cbn [left_to_do]; [|lia]. assert (G := B _ _ _ En). lia.
        * destruct (nth_error _ pos) as [y|] eqn:En; unfold lr_finish; cbn [left_to_do]; [|lia]. assert (G := B _ _ _ En). lia.
      + destruct pc as [z|z|z|z y|z|z y]; cbn [ci_step snd left_to_do pc_left]; try lia.
        * destruct (in_cache_range z); cbn [left_to_do pc_left]; lia.
        * destruct (pg_integers st); cbn [left_to_do pc_left]; lia.
        * destruct build_integer_cache; cbn [left_to_do pc_left]; lia.
    - intros n [[]|[]|[]|[]|[]]; cbn [left_to_do pc_left pg_returned]; try reflexivity; lia.
    - intros n [[]|[]|[]|[]|[]]; cbn [left_to_do pc_left pg_returned]; try reflexivity; discriminate.
    - intros n []; cbn [pg_start moves_needed].
      + unfold aw_start. destruct (all_forms w) as [fs|e] eqn:E; cbn [left_to_do]; [|lia]. apply mapM_length in E. rewrite seq_length in E. lia.
      + cbn. lia.
      + destruct r; cbn [reader_start left_to_do]; lia.
      + destruct r; cbn; lia.
      + cbn. lia.
  Qed.
End C91.

(** Thread 0 adds the word 8, then a template that uses it, under key 1.  Thread 1 asks for the templates of key 1 until there is one, then
    substitutes it - the one it was given.  Thread 2 asks for the integer 5, then for the words of the dictionary. *)
Definition handover (t : template) : program (K := nat) (R := nat) :=
  [fun before => nth_error [Q_add_word eight; Q_add_template (1, t, [])] (length before);
   fun before => match rev before with
                 | PG_lexicon (LR_answer (Several (t' :: _))) :: _ => Some (Q_dictionary (Substitute t' []))
                 | PG_dictionary _ :: _ => None
                 | _ => Some (Q_lexicon (GetTemplates 1 []))
                 end;
   fun before => nth_error [Q_integer 5; Q_dictionary Words] (length before)].
Example C91_case : exists t schedule, parse_template ru_unicode new_template (u "[8]!") [] = (t, Ok tt) /\
  let made := call_made Nat.eqb Nat.eqb ru_unicode [] (after ru_unicode [about]) None (handover t) schedule in
  made (0, 0) (Q_add_word eight) (PG_word (AW_done (Ok tt))) /\
  (exists e, made (0, 1) (Q_add_template (1, t, [])) (PG_template (AT_done e (Ok tt)))) /\
  made (1, 0) (Q_lexicon (GetTemplates 1 [])) (PG_lexicon (LR_answer (Several []))) /\
  (exists k, made (1, k) (Q_lexicon (GetTemplates 1 [])) (PG_lexicon (LR_answer (Several [t]))) /\
             made (1, S k) (Q_dictionary (Substitute t [])) (PG_dictionary (RD_text (Ok (u "8!"))))) /\
  (exists f, made (2, 0) (Q_integer 5) (PG_integer (CI_done 5 (Ok f)))) /\
  made (2, 1) (Q_dictionary Words) (PG_dictionary (RD_set [about; eight])) /\
  has_word (dictionary_at Nat.eqb Nat.eqb ru_unicode [] (after ru_unicode [about]) None (handover t) schedule) (u "8") = true.
Proof.
  eexists. exists (concat (repeat [0; 1; 2]%nat 30)). split; [vm_compute; reflexivity|]. cbv zeta. unfold call_made, made, made_by.
  split; [eexists; split; [vm_compute; reflexivity|split; vm_compute; reflexivity]|].
  split; [eexists; eexists; split; [vm_compute; reflexivity|split; vm_compute; reflexivity]|].
  split; [eexists; split; [vm_compute; reflexivity|split; vm_compute; reflexivity]|].
  split; [|split; [eexists; eexists; split; [vm_compute; reflexivity|split; vm_compute; reflexivity]|split; [eexists; split; [vm_compute; reflexivity|split; vm_compute; reflexivity]|vm_compute; reflexivity]]].
  exists 3%nat; split; (eexists; split; [vm_compute; reflexivity|split; vm_compute; reflexivity]).
Qed.
