(** * PropLexiconThreads: C70 (concurrent add_template) *)
From Verif Require Import PyBase PyBaseFacts Words Lexicon Concurrent SpecLists SpecConcurrent ConcurrentFacts LexThreadFacts PropLexicon.
From Coq Require Import Lia Permutation.

Section C70.
  Context {K T R : Type} (keqb : K -> K -> bool) (reqb : R -> R -> bool) (keqb_ok : eqb_ok keqb).
  Notation call := (lx_call K T R).
  Notation after_calls := (lex_after (T := T) (R := R) keqb).
  Notation adding := (adding_templates (T := T) (R := R) keqb).
  Notation seen := (seen (T := T) (R := R) keqb).
  Notation ended := (ended (T := T) (R := R) keqb).
  Notation all_ended := (all_ended (T := T) (R := R) keqb).

  Lemma entries_view (s : lx_state K T R) k : entries keqb (lx_view s) k = match dget keqb k (lx_data s) with Some r => nth r (lx_lists s) [] | None => [] end.
  Proof. unfold entries. destruct s as [lists data]. rewrite dget_view. cbn [lx_data lx_lists]. destruct (dget keqb k data); reflexivity. Qed.
  Lemma has_key_view (s : lx_state K T R) k : has_key keqb (lx_view s) k = dmem keqb k (lx_data s).
  Proof. unfold has_key, dmem. destruct s as [lists data]. rewrite dget_view. cbn [lx_data]. destruct (dget keqb k data); reflexivity. Qed.
  Lemma answers_of_entries (l l' : lexicon K T R) k : entries keqb l k = entries keqb l' k -> same_answers keqb reqb k l l'.
  Proof. intros H restrictions. unfold get_templates, get_nearest_templates. rewrite H. auto. Qed.

  (** the entries of a key: those of the initial lexicon and a log *)
  Lemma entries_log h calls schedule k owners logs : at_inv keqb (after_calls h) calls owners logs (adding (after_calls h) calls schedule) ->
    let s := fst (adding (after_calls h) calls schedule) in
    entries keqb (lx_view s) k = entries keqb (after_calls h) k ++ match dget keqb k (lx_data s) with Some r => map (fun ic => lc_item (snd ic)) (logs r) | None => [] end.
  Proof.
    intros HI s. rewrite entries_view. pose proof (ti_first _ _ _ _ _ _ HI k) as F. pose proof (ti_new _ _ _ _ _ _ HI k) as N. pose proof (ti_content _ _ _ _ _ _ HI) as C. fold s in F, N, C.
    rewrite <- (view_of (after_calls h)) at 1. rewrite entries_view. pose proof (dmem_of keqb (after_calls h) k) as M. unfold dmem in M at 1.
    destruct (dmem keqb k (after_calls h)) eqn:E.
    - destruct (F eq_refl) as [F1 _]. rewrite F1. destruct (dget keqb k (lx_data (lx_of (after_calls h)))) as [r|]; [|discriminate]. apply C.
    - destruct (dget keqb k (lx_data (lx_of (after_calls h)))) as [r|]; [discriminate|]. destruct (dget keqb k (lx_data s)) as [r|] eqn:Er; [|reflexivity].
      rewrite C. f_equal. unfold base. apply nth_overflow. rewrite map_length. apply (N r eq_refl eq_refl).
  Qed.
  Lemma entries_after h cs k : (forall c, In c cs -> lc_key c = k) -> entries keqb (after_calls (h ++ cs)) k = entries keqb (after_calls h) k ++ map lc_item cs.
  Proof.
    intros H. rewrite !lex_after_entries, filter_app, map_app by assumption. f_equal. change (fun c => (snd (fst c), snd c)) with (@lc_item K T R). f_equal.
    induction cs as [|c cs IH]; [reflexivity|]. cbn [filter]. assert (E : under keqb k c = true) by (apply keqb_ok, H; left; reflexivity). rewrite E. f_equal. apply IH. intros d Hd. apply H. right. exact Hd.
  Qed.

  Lemma explained h calls schedule k : exists log : list (nat * call), NoDup (map fst log) /\
    (forall i c, In (i, c) log -> nth_error calls i = Some c /\ lc_key c = k /\ ended (after_calls h) calls schedule i (Ok tt)) /\
    entries keqb (seen (after_calls h) calls schedule) k = entries keqb (after_calls (h ++ map snd log)) k /\
    (has_key keqb (after_calls h) k = true \/ lone k calls ->
       forall i c, nth_error calls i = Some c -> lc_key c = k -> ended (after_calls h) calls schedule i (Ok tt) -> In (i, c) log).
  Proof.
    destruct (at_inv_run keqb keqb_ok (after_calls h) calls schedule) as (owners & logs & HI). change (run_threads (at_step keqb) (lx_of (after_calls h), map AT_test calls) schedule) with (adding (after_calls h) calls schedule) in HI.
    set (s := fst (adding (after_calls h) calls schedule)). set (log := match dget keqb k (lx_data s) with Some r => logs r | None => [] end). exists log.
    assert (P : forall i c, In (i, c) log -> nth_error calls i = Some c /\ lc_key c = k /\ ended (after_calls h) calls schedule i (Ok tt)).
    { intros i c H. unfold log in H. destruct (dget keqb k (lx_data s)) as [r|] eqn:Er; [|destruct H]. destruct (ti_logs _ _ _ _ _ _ HI r i c H) as [H1 H2].
      split; [apply (ti_call _ _ _ _ _ _ HI _ _ H1)|]. split; [|exists c; exact H1]. pose proof (ti_own _ _ _ _ _ _ HI k r Er). congruence. }
    split; [|split; [exact P|split]].
    - unfold log. destruct (dget keqb k (lx_data s)); [apply (ti_nodup _ _ _ _ _ _ HI)|constructor].
    - rewrite entries_after by (intros c Hc; apply in_map_iff in Hc as ([i d] & <- & Hc); apply (P _ _ Hc)). unfold SpecConcurrent.seen. rewrite (entries_log h calls schedule k owners logs HI). fold s. f_equal.
      rewrite map_map. unfold log. destruct (dget keqb k (lx_data s)); reflexivity.
    - intros Hs i c Hi Hk (d & Hd). pose proof (ti_call _ _ _ _ _ _ HI _ _ Hd) as Hc. cbn [pc_call] in Hc. rewrite Hi in Hc. injection Hc as <-.
      assert (Hs' : safe_key keqb (after_calls h) calls k) by exact Hs. destruct (ti_safe _ _ _ _ _ _ HI k Hs') as (_ & _ & S). destruct (S i c _ Hd Hk) as (r & Hr & Hin). unfold log, s. rewrite Hr. exact Hin.
  Qed.

  (** at every moment of every interleaving the lexicon answers for a key as after the calls h and then some of the calls
      that have returned, each taken once *)
  Theorem C70_some_of_the_calls : forall h calls schedule key, exists ids cs,
    NoDup ids /\ Forall2 (fun i c => nth_error calls i = Some c /\ fst (fst c) = key /\ ended (after_calls h) calls schedule i (Ok tt)) ids cs /\
    same_answers keqb reqb key (seen (after_calls h) calls schedule) (after_calls (h ++ cs)).
  Proof.
    intros h calls schedule k. destruct (explained h calls schedule k) as (log & H1 & H2 & H3 & _). exists (map fst log), (map snd log). split; [exact H1|]. split; [|apply answers_of_entries, H3].
    clear - H2. induction log as [|[i c] log IH]; constructor; [apply H2; left; reflexivity|apply IH; intros j d H; apply H2; right; exact H].
  Qed.
  (** ... and if the key was known before, or only one of the calls has it, these are all the calls for the key that have
      returned: nothing is lost *)
  Theorem C70_nothing_lost : forall h calls schedule key, has_key keqb (after_calls h) key = true \/ lone key calls -> exists ids cs,
    NoDup ids /\ Forall2 (fun i c => nth_error calls i = Some c) ids cs /\
    (forall i, In i ids <-> ended (after_calls h) calls schedule i (Ok tt) /\ exists c, nth_error calls i = Some c /\ fst (fst c) = key) /\
    same_answers keqb reqb key (seen (after_calls h) calls schedule) (after_calls (h ++ cs)).
  Proof.
    intros h calls schedule k Hs. destruct (explained h calls schedule k) as (log & H1 & H2 & H3 & H4). exists (map fst log), (map snd log). split; [exact H1|]. split; [|split; [|apply answers_of_entries, H3]].
    - clear - H2. induction log as [|[i c] log IH]; constructor; [apply H2; left; reflexivity|apply IH; intros j d H; apply H2; right; exact H].
    - intros i. split.
      + intros H. apply in_map_iff in H as ([j c] & <- & H). destruct (H2 _ _ H) as (Q1 & Q2 & Q3). split; [exact Q3|]. exists c. auto.
      + intros [Q1 (c & Q2 & Q3)]. change i with (fst (i, c)). apply in_map, (H4 Hs); assumption.
  Qed.

  Lemma ended_ok h calls schedule i r : ended (after_calls h) calls schedule i r -> r = Ok tt.
  Proof.
    destruct (at_inv_run keqb keqb_ok (after_calls h) calls schedule) as (owners & logs & HI). intros (c & H). apply (ti_done _ _ _ _ _ _ HI _ _ _ H).
  Qed.
  Lemma nodup_pick {A} (l : list A) (p : A -> bool) : exists ix, NoDup ix /\ (forall i, In i ix <-> exists a, nth_error l i = Some a /\ p a = true) /\ Forall2 (fun i a => nth_error l i = Some a) ix (filter p l).
  Proof.
    induction l as [|a l IH] using rev_ind; [exists []; split; [constructor|split; [|constructor]]; intros i; split; [intros []|intros (a & H & _); destruct i; discriminate]|].
    destruct IH as (ix & H1 & H2 & H3). rewrite filter_app. cbn [filter].
    assert (E1 : forall i, In i ix -> i < length l) by (intros i Hi; apply H2 in Hi as (b & Hb & _); apply nth_error_Some; congruence).
    assert (E2 : Forall2 (fun i a0 => nth_error (l ++ [a]) i = Some a0) ix (filter p l)).
    { clear - H3. induction H3; constructor; [|assumption]. rewrite nth_error_app1; [assumption|apply nth_error_Some; congruence]. }
    assert (E3 : forall i b, nth_error (l ++ [a]) i = Some b <-> nth_error l i = Some b \/ i = length l /\ b = a).
    { intros i b. destruct (Nat.lt_ge_cases i (length l)) as [Hl|Hl].
      - rewrite nth_error_app1 by exact Hl. split; [auto|]. intros [H|[H _]]; [exact H|lia].
      - rewrite nth_error_app2 by exact Hl. split.
        + destruct (i - length l) as [|[|n]] eqn:En; try discriminate. intros H. injection H as <-. right. split; [lia|reflexivity].
        + intros [H|[-> ->]]; [apply nth_error_None in Hl; congruence|]. rewrite Nat.sub_diag. reflexivity. }
    destruct (p a) eqn:Ep.
    - exists (ix ++ [length l]). split; [|split].
      + apply (Permutation_NoDup (Permutation_app_comm [length l] ix)). constructor; [|exact H1]. intros H. apply E1 in H. lia.
      + intros i. rewrite in_app_iff, H2. split.
        * intros [(b & Hb & Hp)|[<-|[]]]; [exists b|exists a]; rewrite E3; auto.
        * intros (b & Hb & Hp). apply E3 in Hb as [Hb|[-> ->]]; [left; eauto|right; left; reflexivity].
      + apply Forall2_app; [exact E2|]. constructor; [|constructor]. apply E3. auto.
    - exists ix. rewrite app_nil_r. split; [exact H1|split; [|exact E2]]. intros i. rewrite H2. split; intros (b & Hb & Hp); exists b; (split; [|exact Hp]).
      + apply E3. auto.
      + apply E3 in Hb as [Hb|[_ ->]]; [exact Hb|congruence].
  Qed.
  Lemma perm_by_index {A} (l : list A) ix jx xs ys : NoDup ix -> NoDup jx -> (forall i, In i ix <-> In i jx) ->
    Forall2 (fun i a => nth_error l i = Some a) ix xs -> Forall2 (fun i a => nth_error l i = Some a) jx ys -> Permutation xs ys.
  Proof.
    intros N1 N2 E. assert (P : Permutation ix jx) by (apply NoDup_Permutation; assumption). clear N1 N2 E. revert xs ys.
    assert (F : forall ix xs ys, Forall2 (fun i (a : A) => nth_error l i = Some a) ix xs -> Forall2 (fun i a => nth_error l i = Some a) ix ys -> xs = ys).
    { intros ix0 xs ys H. revert ys. induction H; intros ys H'; inversion H'; subst; [reflexivity|]. f_equal; [congruence|auto]. }
    induction P as [|i ix jx P IH|i j ix|ix jx kx P1 IH1 P2 IH2]; intros xs ys H1 H2.
    - inversion H1; inversion H2; constructor.
    - inversion H1; inversion H2; subst. assert (y0 = y) by congruence. subst. constructor. apply IH; assumption.
    - repeat match goal with H : Forall2 _ (_ :: _) _ |- _ => inversion H; clear H; subst end.
      repeat match goal with A1 : nth_error l ?x = Some ?a, A2 : nth_error l ?x = Some ?b |- _ => assert (a = b) by congruence; subst; clear A2 end.
      match goal with B1 : Forall2 _ ix ?a, B2 : Forall2 _ ix ?b |- _ => rewrite (F _ _ _ B1 B2) end. apply perm_swap.
    - assert (exists zs, Forall2 (fun i (a : A) => nth_error l i = Some a) jx zs) as [zs Hz].
      { assert (Q : forall j, In j jx -> exists a, nth_error l j = Some a).
        { intros j Hj. apply (Permutation_in j (Permutation_sym P1)) in Hj. clear - H1 Hj. induction H1; [destruct Hj|destruct Hj as [<-|Hj]; eauto]. }
        clear - Q. induction jx as [|j jx IH]; [exists []; constructor|]. destruct (Q j (or_introl eq_refl)) as [a Ha]. destruct IH as [zs Hz]; [intros j' H; apply Q; right; exact H|]. exists (a :: zs). constructor; assumption. }
      rewrite (IH1 _ _ H1 Hz). apply IH2; assumption.
  Qed.

  Lemma final_entries h calls schedule key : has_key keqb (after_calls h) key = true \/ lone key calls -> all_ended (after_calls h) calls schedule ->
    exists cs, Permutation cs (filter (under keqb key) calls) /\ (forall c, In c cs -> lc_key c = key) /\ entries keqb (seen (after_calls h) calls schedule) key = entries keqb (after_calls (h ++ cs)) key.
  Proof.
    intros Hs Ha. destruct (explained h calls schedule key) as (log & H1 & H2 & H3 & H4). exists (map snd log). split; [|split; [|exact H3]].
    2: { intros c Hc. apply in_map_iff in Hc as ([i d] & <- & Hc). apply (H2 _ _ Hc). }
    destruct (nodup_pick calls (under keqb key)) as (ix & I1 & I2 & I3). eapply (perm_by_index calls (map fst log) ix); [exact H1|exact I1| |clear - H2|exact I3].
    - intros i. rewrite I2. split.
      + intros H. apply in_map_iff in H as ([j c] & <- & H). destruct (H2 _ _ H) as (Q1 & Q2 & _). exists c. split; [exact Q1|]. apply keqb_ok, Q2.
      + intros (c & Hc & Hk). apply keqb_ok in Hk. change i with (fst (i, c)). apply in_map, (H4 Hs); try assumption.
        destruct (Ha i) as [r Hr]; [apply nth_error_Some; congruence|]. rewrite <- (ended_ok _ _ _ _ _ Hr). exact Hr.
    - induction log as [|[i c] log IH]; constructor; [apply (H2 i c); left; reflexivity|apply IH; intros j d H; apply H2; right; exact H].
  Qed.

  (** when all calls have ended, for such a key there are the templates of the sequential program, in some order *)
  Theorem C70_all_calls : forall h calls schedule key restrictions, has_key keqb (after_calls h) key = true \/ lone key calls ->
    all_ended (after_calls h) calls schedule ->
    Permutation (get_templates keqb reqb (seen (after_calls h) calls schedule) key restrictions) (get_templates keqb reqb (after_calls (h ++ calls)) key restrictions).
  Proof.
    intros h calls schedule key restrictions Hs Ha. destruct (final_entries h calls schedule key Hs Ha) as (cs & P & Hk & E). unfold get_templates. rewrite E.
    apply Permutation_map. rewrite entries_after, lex_after_entries by assumption. rewrite lex_after_entries, (filter_app (under keqb key)), map_app by assumption. change (fun c : K * T * list R => (snd (fst c), snd c)) with (@lc_item K T R).
    rewrite !filter_app. apply Permutation_app_head. assert (F : forall (p : T * list R -> bool) l l', Permutation l l' -> Permutation (filter p l) (filter p l')).
    { intros p l l' HP. induction HP as [|x l l' HP IH|x y l|l l' l'' HP1 IH1 HP2 IH2]; cbn [filter]; [constructor| | |etransitivity; eassumption].
      - destruct (p x); [constructor|]; exact IH.
      - destruct (p x), (p y); try apply perm_swap; reflexivity. }
    apply F, Permutation_map, P.
  Qed.
  (** when all calls have ended exactly the keys of the sequential program are known, and each of the new ones has a template *)
  Theorem C70_keys : forall h calls schedule key, all_ended (after_calls h) calls schedule ->
    has_key keqb (seen (after_calls h) calls schedule) key = has_key keqb (after_calls (h ++ calls)) key.
  Proof.
    intros h calls schedule key Ha. destruct (at_inv_run keqb keqb_ok (after_calls h) calls schedule) as (owners & logs & HI).
    change (run_threads (at_step keqb) (lx_of (after_calls h), map AT_test calls) schedule) with (adding (after_calls h) calls schedule) in HI.
    apply Bool.eq_iff_eq_true. rewrite (C24_has_key keqb keqb_ok). unfold SpecConcurrent.seen. rewrite has_key_view. split.
    - intros H. destruct (dmem keqb key (after_calls h)) eqn:E.
      + apply (C24_has_key keqb keqb_ok) in E as (c & Hc & Hk). exists c. split; [apply in_app_iff; left; exact Hc|exact Hk].
      + unfold dmem in H. destruct (dget keqb key (lx_data (fst (adding (after_calls h) calls schedule)))) as [r|] eqn:Er; [|discriminate].
        destruct (ti_new _ _ _ _ _ _ HI key r Er E) as (_ & c & Hc & Hk). exists c. split; [apply in_app_iff; right; exact Hc|exact Hk].
    - intros (c & Hc & Hk). apply in_app_iff in Hc as [Hc|Hc].
      + assert (E : dmem keqb key (after_calls h) = true) by (apply (C24_has_key keqb keqb_ok); eauto). destruct (ti_first _ _ _ _ _ _ HI key E) as [F _]. unfold dmem. rewrite F.
        rewrite <- dmem_of in E. unfold dmem in E. exact E.
      + apply In_nth_error in Hc as [i Hi]. change (@nth_error call calls i = Some c) in Hi. destruct (Ha i) as (r & d & Hd); [apply nth_error_Some; congruence|]. pose proof (ti_call _ _ _ _ _ _ HI _ _ Hd) as Q. cbn [pc_call] in Q.
        destruct (ti_done _ _ _ _ _ _ HI _ _ _ Hd) as [_ Hm]. rewrite Hi in Q. injection Q as <-. unfold lc_key in Hm. rewrite Hk in Hm. exact Hm.
  Qed.
  Theorem C70_not_empty : (forall r : R, reqb r r = true) -> forall h calls schedule key, all_ended (after_calls h) calls schedule ->
    has_key keqb (after_calls (h ++ calls)) key = true ->
    exists c, In c (h ++ calls) /\ fst (fst c) = key /\ In (snd (fst c)) (get_templates keqb reqb (seen (after_calls h) calls schedule) key (snd c)).
  Proof.
    intros Rr h calls schedule key Ha Hk. destruct (explained h calls schedule key) as (log & H1 & H2 & H3 & _).
    assert (G : forall c, In c (h ++ map snd log) -> fst (fst c) = key -> exists c, In c (h ++ calls) /\ fst (fst c) = key /\ In (snd (fst c)) (get_templates keqb reqb (seen (after_calls h) calls schedule) key (snd c))).
    { intros c Hc Hkc. exists c. split; [|split; [exact Hkc|]].
      - apply in_app_iff in Hc as [Hc|Hc]; apply in_app_iff; [left; exact Hc|right]. apply in_map_iff in Hc as ([i d] & <- & Hc). apply (nth_error_In _ i). apply (H2 _ _ Hc).
      - unfold get_templates. rewrite H3, lex_after_entries by assumption. change (snd (fst c)) with (fst (snd (fst c), snd c)). apply in_map, filter_In. split.
        + apply (in_map (fun c : call => (snd (fst c), snd c))), filter_In. split; [exact Hc|]. apply keqb_ok, Hkc.
        + cbn [snd]. unfold issubset. apply forallb_forall. intros x Hx. unfold mem. apply existsb_exists. exists x. auto. }
    destruct (dmem keqb key (after_calls h)) eqn:E.
    - apply (C24_has_key keqb keqb_ok) in E as (c & Hc & Hkc). apply (G c); [apply in_app_iff; left; exact Hc|exact Hkc].
    - rewrite <- (C70_keys h calls schedule key Ha) in Hk. destruct (at_inv_run keqb keqb_ok (after_calls h) calls schedule) as (owners & logs & HI).
      change (run_threads (at_step keqb) (lx_of (after_calls h), map AT_test calls) schedule) with (adding (after_calls h) calls schedule) in HI.
      unfold SpecConcurrent.seen in Hk, H3. rewrite has_key_view in Hk. unfold dmem in Hk. destruct (dget keqb key (lx_data (fst (adding (after_calls h) calls schedule)))) as [r|] eqn:Er; [|discriminate].
      assert (L : logs r <> []).
      { destruct (ti_live _ _ _ _ _ _ HI key r Er E) as [L|(i & c & Hc & L)]; [exact L|]. exfalso. destruct (Ha i) as (q & d & Hd).
        - apply nth_error_Some. destruct L as [L|L]; rewrite (ti_call _ _ _ _ _ _ HI _ _ L); discriminate.
        - destruct L; congruence. }
      rewrite (entries_log h calls schedule key owners logs HI), Er, entries_after in H3 by (intros c Hc; apply in_map_iff in Hc as ([i d] & <- & Hc); apply (H2 _ _ Hc)).
      apply app_inv_head in H3. destruct log as [|[i c] log]; [destruct (logs r); [congruence|discriminate]|]. apply (G c); [apply in_app_iff; right; left; reflexivity|apply (H2 i c); left; reflexivity].
  Qed.

  (** no call raises; a known key stays known *)
  Theorem C70_never_raises : forall h calls schedule i r, ended (after_calls h) calls schedule i r -> r = Ok tt.
  Proof. intros h calls schedule i r. apply ended_ok. Qed.
  Theorem C70_never_forgets_a_key : forall l calls s1 s2 key, has_key keqb (seen l calls s1) key = true -> has_key keqb (seen l calls (s1 ++ s2)) key = true.
  Proof.
    intros l calls s1 s2 key. unfold SpecConcurrent.seen, adding_templates, at_run. rewrite run_app, !has_key_view. intros H.
    apply (run_invariant (at_step keqb) (fun st : lx_state K T R * list (at_pc K T R) => dmem keqb key (lx_data (fst st)) = true)); [|exact H]. clear H. intros st i H. unfold step_at. destruct (nth_error (snd st) i) as [pc|]; [|exact H].
    destruct pc as [c|c|c|c r|c r]; cbn [at_step fst lx_data]; try exact H. apply (dmem_dset_mono keqb keqb_ok); exact H.
  Qed.
  (** each thread ends: four steps *)
  Theorem C70_progress : forall h calls schedule i, i < length calls -> 4 <= moves i schedule -> ended (after_calls h) calls schedule i (Ok tt).
  Proof.
    intros h calls schedule i Hi Hm. destruct (nth_error calls i) as [c|] eqn:Ec; [|apply nth_error_None in Ec; lia].
    pose (m := fun pc : at_pc K T R => match pc with AT_test _ => 4 | AT_create _ => 3 | AT_load _ => 2 | AT_append _ _ => 1 | AT_done _ _ => 0 end).
    destruct (run_measure (at_step keqb) m) with (sched := schedule) (st := (lx_of (after_calls h), map (@AT_test K T R) calls)) (i := i) (pc := @AT_test K T R c) as (pc & E1 & E2).
    - intros s [d|d|d|d r|d r]; cbn; try lia; [destruct (dmem keqb (lc_key d) (lx_data s)); cbn; lia|destruct (dget keqb (lc_key d) (lx_data s)); cbn; lia].
    - cbn [snd]. rewrite nth_error_map, Ec. reflexivity.
    - unfold moves in Hm. unfold count_runs in E2. cbn [m] in E2. assert (E3 : m pc = 0) by lia. destruct pc as [d|d|d|d r|d r]; cbn [m] in E3; try lia.
      assert (E : ended (after_calls h) calls schedule i r) by (exists d; exact E1). rewrite <- (ended_ok _ _ _ _ _ E). exact E.
  Qed.
End C70.

(** FINDING: a race.  Two first calls for a new key: the template of a call that had already returned, and that readers
    have already been given, disappears *)
Theorem C70_lost_template_refuted : exists (calls : list (lx_call nat nat nat)) s1 s2,
  ended Nat.eqb [] calls s1 0 (Ok tt) /\ get_templates Nat.eqb Nat.eqb (seen Nat.eqb [] calls s1) 1 [] = [10] /\
  all_ended Nat.eqb [] calls (s1 ++ s2) /\ get_templates Nat.eqb Nat.eqb (seen Nat.eqb [] calls (s1 ++ s2)) 1 [] = [20] /\
  get_templates Nat.eqb Nat.eqb (lex_after Nat.eqb calls) 1 [] = [10; 20].
Proof.
  exists [(1, 10, []); (1, 20, [])], [0; 1; 0; 0; 0], [1; 1; 1]. split; [eexists; vm_compute; reflexivity|]. split; [reflexivity|]. split; [|split; reflexivity].
  intros [|[|i]] H; [exists (Ok tt); eexists; vm_compute; reflexivity|exists (Ok tt); eexists; vm_compute; reflexivity|cbn in H; lia].
Qed.
(** FINDING: in the middle of the first call for a key the key is known and has no template at all *)
Theorem C70_empty_key_refuted : exists (calls : list (lx_call nat nat nat)) schedule, has_key Nat.eqb (seen Nat.eqb [] calls schedule) 1 = true /\
  forall restrictions rnd, get_random_template Nat.eqb Nat.eqb rnd (seen Nat.eqb [] calls schedule) 1 restrictions = Err NoTemplatesWithSpecifiedRestrictions.
Proof. exists [(1, 10, [])], [0; 0]. split; [reflexivity|]. intros restrictions rnd. reflexivity. Qed.

(** three calls, two for a key known before and one for another one *)
Example C70_case : let h := [(1, 9, [])] in let calls := [(1, 10, []); (1, 20, [5]); (2, 30, [])] in let schedule := [0; 1; 2; 1; 2; 1; 2; 2; 0; 0; 0] in
  eqb_ok Nat.eqb /\ has_key Nat.eqb (lex_after Nat.eqb h) 1 = true /\ lone 2 calls /\ all_ended Nat.eqb (lex_after Nat.eqb h) calls schedule /\
  get_templates Nat.eqb Nat.eqb (seen Nat.eqb (lex_after Nat.eqb h) calls schedule) 1 [5] = [9; 20; 10] /\
  get_templates Nat.eqb Nat.eqb (seen Nat.eqb (lex_after Nat.eqb h) calls schedule) 2 [5] = [30].
Proof.
  cbv zeta. split; [exact Nat.eqb_eq|]. split; [reflexivity|]. split.
  { intros [|[|[|i]]] [|[|[|j]]] c c' H1 H2 H3 H4; cbn in H1, H2; try (destruct i; discriminate); try (destruct j; discriminate); try reflexivity;
      injection H1 as <-; injection H2 as <-; cbn in H3, H4; discriminate. }
  split; [|split; reflexivity].
  intros [|[|[|i]]] H; [exists (Ok tt); eexists; vm_compute; reflexivity|exists (Ok tt); eexists; vm_compute; reflexivity|exists (Ok tt); eexists; vm_compute; reflexivity|cbn in H; lia].
Qed.
