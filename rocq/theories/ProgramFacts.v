(** * ProgramFacts: threads that make several calls, seen as one thread for each call; parts of a program *)
From Coq Require Import Lia.
From Verif Require Import PyBase PyBaseFacts Words Concurrent ConcurrentFacts Program SpecProgram.

Lemma set_other {A} (l : list A) j x i a : nth_error l j = Some a -> i <> j -> nth_error (list_set j x l) i = nth_error l i.
Proof. intros H N. rewrite (set_nth_at _ _ _ _ _ H). destruct (Nat.eqb_spec i j); [contradiction|reflexivity]. Qed.
Lemma set_same {A} (l : list A) j x a : nth_error l j = Some a -> nth_error (list_set j x l) j = Some x.
Proof. intros H. rewrite (set_nth_at _ _ _ _ _ H). rewrite Nat.eqb_refl. reflexivity. Qed.
Lemma nodup_nth {A B} (f : A -> B) l n m x y : NoDup (map f l) -> nth_error l n = Some x -> nth_error l m = Some y -> f x = f y -> n = m.
Proof.
  intros H Hn Hm E. apply (proj1 (NoDup_nth_error (map f l)) H).
  - rewrite map_length. apply nth_error_Some. congruence.
  - rewrite !nth_error_map, Hn, Hm. cbn. congruence.
Qed.

(** ** threads that are not scheduled *)
Section Idle.
  Context {S P : Type} (step : S -> P -> S * P).
  Lemma run_idle (extra : list P) s sched : forall t, Forall (fun i => i < length t) sched ->
    run_threads step (s, t ++ extra) sched = (fst (run_threads step (s, t) sched), snd (run_threads step (s, t) sched) ++ extra) /\
    length (snd (run_threads step (s, t) sched)) = length t.
  Proof.
    intros t. induction sched as [|i sched IH] using rev_ind; intro H; [split; reflexivity|]. apply Forall_app in H as [H1 H2]. inversion H2 as [|? ? Hi _]; subst.
    destruct (IH H1) as [E L]. rewrite !run_app, E. destruct (run_threads step (s, t) sched) as [s1 t1]. cbn [fst snd] in *. cbn [run_threads fold_left]. unfold step_at. cbn [fst snd].
    rewrite nth_error_app1 by lia. destruct (nth_error t1 i) as [p|] eqn:Ei; [|split; [reflexivity|exact L]]. destruct (step s1 p) as [s2 p2]. cbn [fst snd].
    split; [|rewrite list_set_length; exact L]. f_equal. clear - Ei. revert i Ei. induction t1 as [|a t1 IH]; intros [|i] Ei; try discriminate; [reflexivity|]. cbn. f_equal. apply IH. exact Ei.
  Qed.
End Idle.

(** ** a list of threads and the threads of one kind *)
Section Simulate.
  Context {S P S' P' : Type} (step : S -> P -> S * P) (step' : S' -> P' -> S' * P') (view : S -> S') (pick : P -> option P').
  Hypothesis Hpick : forall s p q, pick p = Some q ->
    view (fst (step s p)) = fst (step' (view s) q) /\ pick (snd (step s p)) = Some (snd (step' (view s) q)).
  Hypothesis Hother : forall s p, pick p = None -> view (fst (step s p)) = view s /\ pick (snd (step s p)) = None.
  (** thread n of the program is thread (pos n) of the part, or none of its kind *)
  Definition matches (pos : nat -> option nat) (l : list P) (t : list P') : Prop := forall n p, nth_error l n = Some p ->
    match pos n with
    | Some m => exists q, pick p = Some q /\ nth_error t m = Some q
    | None => pick p = None
    end.
  Lemma simulate pos s l t : matches pos l t -> (forall n n' m, pos n = Some m -> pos n' = Some m -> n = n') ->
    forall sched, exists sched', view (fst (run_threads step (s, l) sched)) = fst (run_threads step' (view s, t) sched') /\
      matches pos (snd (run_threads step (s, l) sched)) (snd (run_threads step' (view s, t) sched')) /\
      (forall a b, sched' = a ++ b -> exists c e, sched = c ++ e /\ fst (run_threads step' (view s, t) a) = view (fst (run_threads step (s, l) c))).
  Proof.
    intros Hm Hi sched. induction sched as [|i sched IH] using rev_ind.
    { exists []. split; [reflexivity|]. split; [exact Hm|]. intros a b E. symmetry in E. apply app_eq_nil in E as [-> ->]. exists [], []. split; reflexivity. }
    destruct IH as (sched' & Hv & Hl & Hmo).
    assert (Grow : forall a b, sched' = a ++ b -> exists c e, sched ++ [i] = c ++ e /\ fst (run_threads step' (view s, t) a) = view (fst (run_threads step (s, l) c))).
    { intros a b E. destruct (Hmo a b E) as (c & e & -> & G). exists c, (e ++ [i]). rewrite app_assoc. split; [reflexivity|exact G]. }
    rewrite run_app. destruct (run_threads step (s, l) sched) as [s1 l1] eqn:E1. cbn [fst snd] in Hv, Hl.
    destruct (run_threads step' (view s, t) sched') as [s1' t1] eqn:E'. cbn [fst snd] in Hv, Hl. cbn [run_threads fold_left]. unfold step_at. cbn [fst snd].
    destruct (nth_error l1 i) as [p|] eqn:Ei.
    - assert (G := Hl i p Ei). destruct (pos i) as [m|] eqn:Ep.
      + destruct G as (q & Hq & Hn). destruct (Hpick s1 p q Hq) as [V1 V2]. destruct (step s1 p) as [s2 p2] eqn:Es. cbn [fst snd] in V1, V2.
        exists (sched' ++ [m]). rewrite run_app, E'. cbn [run_threads fold_left]. unfold step_at. cbn [fst snd]. rewrite Hn. rewrite Hv in V1, V2.
        destruct (step' s1' q) as [s2' q2] eqn:Eq. cbn [fst snd] in V1, V2 |- *. split; [exact V1|]. split.
        * intros n r Hr. destruct (Nat.eq_dec n i) as [->|Nn].
          -- rewrite (set_same _ _ _ _ Ei) in Hr. injection Hr as <-. rewrite Ep. exists q2. split; [exact V2|]. apply (set_same _ _ _ _ Hn).
          -- rewrite (set_other _ _ _ _ _ Ei Nn) in Hr. assert (G := Hl n r Hr). destruct (pos n) as [m'|] eqn:En; [|exact G]. destruct G as (q' & Hq' & Hn'). exists q'. split; [exact Hq'|].
             rewrite (set_other _ _ _ _ _ Hn); [exact Hn'|]. intros ->. apply Nn. exact (Hi _ _ _ En Ep).
        * intros a b E. destruct b as [|y b] using rev_ind.
          -- rewrite app_nil_r in E. subst a. exists (sched ++ [i]), []. rewrite app_nil_r. split; [reflexivity|]. rewrite !run_app, E', E1. cbn [run_threads fold_left]. unfold step_at. cbn [fst snd].
             rewrite Hn, Ei, Eq, Es. cbn [fst]. symmetry. exact V1.
          -- rewrite app_assoc in E. apply app_inj_tail in E as [E _]. exact (Grow a b E).
      + destruct (Hother s1 p G) as [V1 V2]. destruct (step s1 p) as [s2 p2]. cbn [fst snd] in V1, V2. exists sched'. rewrite E'. cbn [fst snd]. split; [congruence|].
        split; [|exact Grow]. intros n r Hr. destruct (Nat.eq_dec n i) as [->|Nn].
        * rewrite (set_same _ _ _ _ Ei) in Hr. injection Hr as <-. rewrite Ep. exact V2.
        * rewrite (set_other _ _ _ _ _ Ei Nn) in Hr. exact (Hl n r Hr).
    - exists sched'. rewrite E'. split; [exact Hv|]. split; [exact Hl|exact Grow].
  Qed.
End Simulate.

(** ** the calls of the workers as threads of their own *)
Section Flatten.
  Context {S P Q : Type} (step : S -> P -> S * P) (start : Q -> P) (returned : P -> bool).
  Notation run_w := (wk_run step start returned).
  Definition threads (l : list (nat * nat * Q)) : list P := map (fun x => start (snd x)) l.
  Lemma made_set (W : list (worker P Q)) i w w' j k q p : nth_error W i = Some w -> (made (list_set i w' W) j k q p <->
    (j = i /\ made_by w' k q p) \/ (j <> i /\ made W j k q p)).
  Proof.
    intro Hi. unfold made. destruct (Nat.eq_dec j i) as [->|N].
    - rewrite (set_same _ _ _ _ Hi). split; [intros (x & E & H); injection E as <-; auto|]. intros [[_ H]|[H _]]; [exists w'; auto|contradiction].
    - rewrite (set_other _ _ _ _ _ Hi N). split; [auto|]. intros [[H _]|[_ H]]; [contradiction|exact H].
  Qed.
  Record flat_ok (s0 : S) (W : S * list (worker P Q)) (l : list (nat * nat * Q)) (sched' : list nat) : Prop := {
    fo_state : fst W = fst (run_threads step (s0, threads l) sched');
    fo_nodup : NoDup (map fst l);
    fo_made : forall n i k q, nth_error l n = Some (i, k, q) -> exists p, made (snd W) i k q p /\ nth_error (snd (run_threads step (s0, threads l) sched')) n = Some p;
    fo_all : forall i k q p, made (snd W) i k q p -> In (i, k, q) l;
    fo_asked : forall i w k p, nth_error (snd W) i = Some w -> nth_error (calls_of w) k = Some p -> exists q, wk_next w (firstn k (wk_done w)) = Some q;
    fo_range : Forall (fun n => n < length l) sched' }.
  Theorem flatten (strats : list (strategy P Q)) s0 sched :
    exists l sched', flat_ok s0 (run_w (s0, map new_worker strats) sched) l sched' /\
      forall a b, sched' = a ++ b -> exists c e, sched = c ++ e /\ fst (run_threads step (s0, threads l) a) = fst (run_w (s0, map new_worker strats) c).
  Proof.
    set (st0 := (s0, map new_worker strats)). induction sched as [|i sched IH] using rev_ind.
    { exists [], []. split.
      - split; try (intros; discriminate); cbn; [reflexivity|constructor|intros []; discriminate| | |constructor].
        + intros i k q p (w & Hw & Hk & _). apply nth_error_In, in_map_iff in Hw as (f & <- & _). destruct k; discriminate.
        + intros i w k p Hw Hk. apply nth_error_In, in_map_iff in Hw as (f & <- & _). destruct k; discriminate.
      - intros a b E. symmetry in E. apply app_eq_nil in E as [-> ->]. exists [], []. split; reflexivity. }
    destruct IH as (l & sched' & [F1 F2 F3 F4 F5 F6] & Hmo). unfold wk_run in *. rewrite run_app. destruct (run_threads (wk_step step start returned) st0 sched) as [s W] eqn:E1. cbn [fst snd] in *.
    assert (Grow : forall a b, sched' = a ++ b -> exists c e, sched ++ [i] = c ++ e /\ fst (run_threads step (s0, threads l) a) = fst (run_threads (wk_step step start returned) st0 c)).
    { intros a b E. destruct (Hmo a b E) as (c & e & -> & G). exists c, (e ++ [i]). rewrite app_assoc. split; [reflexivity|exact G]. }
    cbn [run_threads fold_left]. unfold step_at. cbn [fst snd].
    destruct (nth_error W i) as [w|] eqn:Ei; [|exists l, sched'; split; [constructor; assumption|exact Grow]].
    unfold wk_step at 1. destruct (wk_current w) as [p|] eqn:Ec; [destruct (returned p) eqn:Er|].
    - (* a call that is over *)
      set (w' := {| wk_next := wk_next w; wk_done := wk_done w ++ [p]; wk_current := None |}).
      assert (Cw : calls_of w' = calls_of w) by (unfold calls_of, w'; cbn; rewrite Ec, app_nil_r; reflexivity).
      assert (Lw : forall k x, nth_error (calls_of w) k = Some x -> firstn k (wk_done w ++ [p]) = firstn k (wk_done w)).
      { intros k x Hk. assert (k < length (calls_of w)) by (apply nth_error_Some; congruence). unfold calls_of in H. rewrite Ec, app_length in H. cbn in H.
        rewrite firstn_app. replace (k - length (wk_done w)) with 0 by lia. cbn. apply app_nil_r. }
      assert (M : forall k q x, made_by w' k q x <-> made_by w k q x).
      { intros k q x. unfold made_by. rewrite Cw. cbn [w' wk_next wk_done]. split; intros [H1 H2]; (split; [exact H1|]); [rewrite (Lw _ _ H1) in H2|rewrite (Lw _ _ H1)]; exact H2. }
      assert (M2 : forall j k q x, made (list_set i w' W) j k q x <-> made W j k q x).
      { intros j k q x. rewrite (made_set _ _ _ _ _ _ _ _ Ei), M. unfold made at 2. split; [intros [[-> H]|[_ H]]; [exists w; auto|exact H]|]. intros (v & Hv & H). destruct (Nat.eq_dec j i) as [->|N]; [left; split; [reflexivity|congruence]|right; split; [exact N|exists v; auto]]. }
      exists l, sched'. split; [|exact Grow]. split; cbn [fst snd]; try assumption.
      + intros n j k q Hn. destruct (F3 n j k q Hn) as (x & Hx & Hy). exists x. rewrite M2. auto.
      + intros j k q x H. apply M2 in H. eauto.
      + intros j v k x Hv Hk. destruct (Nat.eq_dec j i) as [->|N].
        * rewrite (set_same _ _ _ _ Ei) in Hv. injection Hv as <-. rewrite Cw in Hk. destruct (F5 _ _ _ _ Ei Hk) as [q Hq]. exists q. cbn [w' wk_next wk_done]. rewrite (Lw _ _ Hk). exact Hq.
        * rewrite (set_other _ _ _ _ _ Ei N) in Hv. eauto.
    - (* a step of a call *)
      assert (Hk : nth_error (calls_of w) (length (wk_done w)) = Some p).
      { unfold calls_of. rewrite Ec, nth_error_app2, Nat.sub_diag by lia. reflexivity. }
      destruct (F5 _ _ _ _ Ei Hk) as [q Hq].
      assert (Hin : In (i, length (wk_done w), q) l) by (apply (F4 _ _ _ p); exists w; repeat split; assumption).
      apply In_nth_error in Hin as [n Hn]. destruct (F3 _ _ _ _ Hn) as (x & (w1 & Hw1 & Hx & _) & Hy). rewrite Ei in Hw1. injection Hw1 as <-. rewrite Hk in Hx. injection Hx as <-.
      assert (Ln : n < length l) by (apply nth_error_Some; congruence).
      destruct (run_threads step (s0, threads l) sched') as [sf tf] eqn:Ef. cbn [fst snd] in *. subst sf. destruct (step s p) as [s2 p2] eqn:Es. cbn [fst snd].
      set (w' := {| wk_next := wk_next w; wk_done := wk_done w; wk_current := Some p2 |}).
      assert (Ef' : run_threads step (s0, threads l) (sched' ++ [n]) = (s2, list_set n p2 tf)).
      { rewrite run_app, Ef. cbn [run_threads fold_left]. unfold step_at. cbn [fst snd]. rewrite Hy, Es. reflexivity. }
      assert (C1 : forall k x, k <> length (wk_done w) -> nth_error (calls_of w') k = Some x <-> nth_error (calls_of w) k = Some x).
      { intros k x Nk. unfold calls_of, w'. cbn [wk_done wk_current]. rewrite Ec. destruct (Nat.lt_ge_cases k (length (wk_done w))).
        - rewrite !nth_error_app1 by assumption. reflexivity.
        - rewrite !nth_error_app2 by assumption. destruct (k - length (wk_done w)) as [|d] eqn:Ed; [lia|]. destruct d; cbn; split; discriminate. }
      assert (C2 : nth_error (calls_of w') (length (wk_done w)) = Some p2) by (unfold calls_of, w'; cbn [wk_done wk_current]; rewrite nth_error_app2, Nat.sub_diag by lia; reflexivity).
      exists l, (sched' ++ [n]). split.
      + split; rewrite ?Ef'; cbn [fst snd]; try assumption; try reflexivity.
        * intros m j k q' Hm. destruct (F3 _ _ _ _ Hm) as (y & Hy1 & Hy2). destruct (Nat.eq_dec m n) as [->|Nm].
          -- rewrite Hn in Hm. injection Hm as <- <- <-. exists p2. split; [|apply (set_same _ _ _ _ Hy)]. apply (made_set _ _ _ _ _ _ _ _ Ei). left. split; [reflexivity|]. split; [exact C2|exact Hq].
          -- exists y. split; [|rewrite (set_other _ _ _ _ _ Hy Nm); exact Hy2]. apply (made_set _ _ _ _ _ _ _ _ Ei). destruct (Nat.eq_dec j i) as [->|Nj]; [|right; auto]. left. split; [reflexivity|].
             destruct Hy1 as (v & Hv & Hy1 & Hy3). rewrite Ei in Hv. injection Hv as <-. split; [|exact Hy3]. apply C1; [|exact Hy1]. intros ->. apply Nm. eapply (nodup_nth fst); eauto.
        * intros j k q' x H. apply (made_set _ _ _ _ _ _ _ _ Ei) in H as [[-> [H1 H2]]|[_ H]]; [|eauto]. cbn [w' wk_next wk_done] in H2. destruct (Nat.eq_dec k (length (wk_done w))) as [->|Nk].
          -- rewrite Hq in H2. injection H2 as <-. eapply nth_error_In; eassumption.
          -- apply (F4 _ _ _ x). exists w. split; [exact Ei|]. split; [apply C1; assumption|exact H2].
        * intros j v k x Hv H. destruct (Nat.eq_dec j i) as [->|N].
          -- rewrite (set_same _ _ _ _ Ei) in Hv. injection Hv as <-. cbn [w' wk_next wk_done]. destruct (Nat.eq_dec k (length (wk_done w))) as [->|Nk]; [exists q; exact Hq|]. apply C1 in H; [|exact Nk]. eauto.
          -- rewrite (set_other _ _ _ _ _ Ei N) in Hv. eauto.
        * apply Forall_app. split; [assumption|]. constructor; [exact Ln|constructor].
      + intros a b E. destruct b as [|y b] using rev_ind.
        * rewrite app_nil_r in E. subst a. exists (sched ++ [i]), []. rewrite app_nil_r. split; [reflexivity|]. rewrite Ef', run_app, E1. cbn [run_threads fold_left]. unfold step_at. cbn [fst snd]. rewrite Ei. unfold wk_step. rewrite Ec, Er, Es. reflexivity.
        * rewrite app_assoc in E. apply app_inj_tail in E as [E _]. exact (Grow a b E).
    - destruct (wk_next w (wk_done w)) as [q|] eqn:Eq.
      + (* a call that starts *)
        set (w' := {| wk_next := wk_next w; wk_done := wk_done w; wk_current := Some (start q) |}).
        assert (Cw : calls_of w = wk_done w) by (unfold calls_of; rewrite Ec; apply app_nil_r).
        assert (Cw' : calls_of w' = wk_done w ++ [start q]) by reflexivity.
        assert (Ra : forall a, Forall (fun n => n < length l) a -> run_threads step (s0, threads (l ++ [(i, length (wk_done w), q)])) a =
          (fst (run_threads step (s0, threads l) a), snd (run_threads step (s0, threads l) a) ++ [start q]) /\ length (snd (run_threads step (s0, threads l) a)) = length l).
        { intros a Ha. unfold threads. rewrite map_app. cbn [map snd]. rewrite <- (map_length (fun x => start (snd x)) l). apply run_idle. rewrite map_length. exact Ha. }
        destruct (Ra sched' F6) as [Ef Lf].
        exists (l ++ [(i, length (wk_done w), q)]), sched'. split.
        * split; rewrite ?Ef; cbn [fst snd]; try assumption.
          -- rewrite map_app. cbn [map]. apply NoDup_Add with (a := (i, length (wk_done w))) (l := map fst l); [|split; [exact F2|]].
             ++ rewrite <- (app_nil_r (map fst l)) at 1. apply Add_app.
             ++ intros H. apply in_map_iff in H as ([[j k] q'] & E & H). cbn in E. injection E as -> ->. apply In_nth_error in H as [n H]. destruct (F3 _ _ _ _ H) as (x & (v & Hv & Hx & _) & _).
                rewrite Ei in Hv. injection Hv as <-. rewrite Cw in Hx. assert (length (wk_done w) < length (wk_done w)) by (apply nth_error_Some; congruence). lia.
          -- intros n j k q' Hn. destruct (Nat.lt_ge_cases n (length l)) as [L|L].
             ++ rewrite nth_error_app1 in Hn by exact L. destruct (F3 _ _ _ _ Hn) as (x & Hx & Hy). exists x. split; [|rewrite nth_error_app1 by lia; exact Hy]. apply (made_set _ _ _ _ _ _ _ _ Ei).
                destruct (Nat.eq_dec j i) as [->|N]; [left|right; auto]. split; [reflexivity|]. destruct Hx as (v & Hv & Hx & Hz). rewrite Ei in Hv. injection Hv as <-. split; [|exact Hz].
                rewrite Cw in Hx. rewrite Cw', nth_error_app1; [exact Hx|]. apply nth_error_Some. congruence.
             ++ rewrite nth_error_app2 in Hn by exact L. destruct (n - length l) as [|d] eqn:Ed; [|destruct d; discriminate]. injection Hn as <- <- <-. exists (start q). split.
                ** apply (made_set _ _ _ _ _ _ _ _ Ei). left. split; [reflexivity|]. split; [rewrite Cw', nth_error_app2, Nat.sub_diag by lia; reflexivity|]. cbn [w' wk_next wk_done]. rewrite firstn_all. exact Eq.
                ** rewrite nth_error_app2 by lia. rewrite Lf, Ed. reflexivity.
          -- intros j k q' x H. apply in_app_iff. apply (made_set _ _ _ _ _ _ _ _ Ei) in H as [[-> [H1 H2]]|[_ H]]; [|left; eauto]. cbn [w' wk_next wk_done] in H2. rewrite Cw' in H1. destruct (Nat.lt_ge_cases k (length (wk_done w))) as [L|L].
             ++ left. rewrite nth_error_app1 in H1 by exact L. apply (F4 _ _ _ x). exists w. split; [exact Ei|]. split; [rewrite Cw; exact H1|exact H2].
             ++ right. rewrite nth_error_app2 in H1 by exact L. destruct (k - length (wk_done w)) as [|d] eqn:Ed; [|destruct d; discriminate]. assert (k = length (wk_done w)) by lia. subst k. rewrite firstn_all, Eq in H2. injection H2 as <-. left. reflexivity.
          -- intros j v k x Hv H. destruct (Nat.eq_dec j i) as [->|N].
             ++ rewrite (set_same _ _ _ _ Ei) in Hv. injection Hv as <-. rewrite Cw' in H. cbn [w' wk_next wk_done]. destruct (Nat.lt_ge_cases k (length (wk_done w))) as [L|L].
                ** rewrite nth_error_app1 in H by exact L. apply (F5 _ _ k x Ei). rewrite Cw. exact H.
                ** rewrite nth_error_app2 in H by exact L. destruct (k - length (wk_done w)) as [|d] eqn:Ed; [|destruct d; discriminate]. assert (k = length (wk_done w)) by lia. subst k. rewrite firstn_all. eauto.
             ++ rewrite (set_other _ _ _ _ _ Ei N) in Hv. eauto.
          -- rewrite app_length. eapply Forall_impl; [|exact F6]. cbn. intros. lia.
        * intros a b E. destruct (Grow a b E) as (c & e & H1 & H2). exists c, e. split; [exact H1|]. rewrite <- H2. assert (Ha : Forall (fun n => n < length l) a) by (rewrite E in F6; apply Forall_app in F6; tauto). rewrite (proj1 (Ra a Ha)). reflexivity.
      + (* a worker that has nothing more to do *)
        assert (M2 : forall j k q x, made (list_set i w W) j k q x <-> made W j k q x).
        { intros j k q x. unfold made. destruct (Nat.eq_dec j i) as [->|N]; [rewrite (set_same _ _ _ _ Ei), Ei|rewrite (set_other _ _ _ _ _ Ei N)]; reflexivity. }
        exists l, sched'. split; [|exact Grow]. split; cbn [fst snd]; try assumption.
        * intros n j k q Hn. destruct (F3 n j k q Hn) as (x & Hx & Hy). exists x. rewrite M2. auto.
        * intros j k q x H. apply M2 in H. eauto.
        * intros j v k x Hv Hk. destruct (Nat.eq_dec j i) as [->|N]; [rewrite (set_same _ _ _ _ Ei) in Hv; injection Hv as <-; eauto|rewrite (set_other _ _ _ _ _ Ei N) in Hv; eauto].
  Qed.
End Flatten.

(** ** the calls of two kinds *)
Section Chosen.
  Context {Q A : Type} (f : Q -> option A).
  Definition chosen (l : list (nat * nat * Q)) : list (nat * nat * A) := flat_map (fun x => match f (snd x) with Some a => [(fst x, a)] | None => [] end) l.
  Lemma chosen_at l n c q a : nth_error l n = Some (c, q) -> f q = Some a -> nth_error (chosen l) (length (chosen (firstn n l))) = Some (c, a).
  Proof.
    revert n. induction l as [|[c' q'] l IH]; intros [|n] H E; try discriminate; cbn [nth_error firstn] in *.
    - injection H as -> ->. cbn. rewrite E. reflexivity.
    - specialize (IH n H E). unfold chosen in *. cbn [flat_map snd fst]. rewrite app_length. rewrite nth_error_app2 by lia. replace (_ + _ - _) with (length (flat_map (fun x => match f (snd x) with Some a0 => [(fst x, a0)] | None => [] end) (firstn n l))) by lia. exact IH.
  Qed.
  Lemma chosen_in l c a : In (c, a) (chosen l) <-> exists q, In (c, q) l /\ f q = Some a.
  Proof.
    unfold chosen. rewrite in_flat_map. split.
    - intros ([c' q] & H & Hx). cbn in Hx. destruct (f q) as [b|] eqn:E; [|destruct Hx]. destruct Hx as [Hx|[]]. injection Hx as <- <-. eauto.
    - intros (q & H & E). exists (c, q). split; [exact H|]. cbn. rewrite E. left. reflexivity.
  Qed.
  Lemma chosen_nodup l : NoDup (map fst l) -> NoDup (map fst (chosen l)).
  Proof.
    induction l as [|[c q] l IH]; intro H; [constructor|]. inversion H as [|? ? N D]; subst. unfold chosen in *. cbn [flat_map fst snd]. destruct (f q) as [a|]; [|exact (IH D)]. cbn [app map fst]. constructor; [|exact (IH D)].
    intros X. apply in_map_iff in X as ([c' b] & E & X). cbn in E. subst c'. apply N. apply (chosen_in l c b) in X as (q' & X & _). change c with (fst (c, q')). apply in_map. exact X.
  Qed.
End Chosen.
Arguments chosen {Q A} f l.
Arguments chosen_nodup {Q A} f l _.

Section Parts.
  Context {S P Q S' P' A B : Type} (step : S -> P -> S * P) (start : Q -> P) (returned : P -> bool) (step' : S' -> P' -> S' * P') (view : S -> S') (pick : P -> option P')
    (fa : Q -> option A) (fb : Q -> option B) (sa : A -> P') (sb : B -> P').
  Hypothesis Hpick : forall s p q, pick p = Some q ->
    view (fst (step s p)) = fst (step' (view s) q) /\ pick (snd (step s p)) = Some (snd (step' (view s) q)).
  Hypothesis Hother : forall s p, pick p = None -> view (fst (step s p)) = view s /\ pick (snd (step s p)) = None.
  Hypothesis Hstart : forall q, pick (start q) = match fa q with Some a => Some (sa a) | None => match fb q with Some b => Some (sb b) | None => None end end.
  Hypothesis Hone : forall q a, fa q = Some a -> fb q = None.
  Notation run_w := (wk_run step start returned).
  Theorem parts (strats : list (strategy P Q)) s0 sched :
    let W := run_w (s0, map new_worker strats) sched in
    exists (la : list (nat * nat * A)) (lb : list (nat * nat * B)) sched',
      let R := fun s => run_threads step' (view s0, map (fun x => sa (snd x)) la ++ map (fun x => sb (snd x)) lb) s in
      NoDup (map fst la) /\ NoDup (map fst lb) /\ view (fst W) = fst (R sched') /\
      (forall n i k a, nth_error la n = Some (i, k, a) -> exists q p p', fa q = Some a /\ made (snd W) i k q p /\ pick p = Some p' /\ nth_error (snd (R sched')) n = Some p') /\
      (forall n i k b, nth_error lb n = Some (i, k, b) -> exists q p p', fb q = Some b /\ made (snd W) i k q p /\ pick p = Some p' /\ nth_error (snd (R sched')) (length la + n) = Some p') /\
      (forall i k q p a, made (snd W) i k q p -> fa q = Some a -> In (i, k, a) la) /\
      (forall i k q p b, made (snd W) i k q p -> fb q = Some b -> In (i, k, b) lb) /\
      (forall a b, sched' = a ++ b -> exists c e, sched = c ++ e /\ fst (R a) = view (fst (run_w (s0, map new_worker strats) c))).
  Proof.
    cbv zeta. destruct (flatten step start returned strats s0 sched) as (l & fsched & [F1 F2 F3 F4 F5 F6] & Fm). set (W := run_w (s0, map new_worker strats) sched) in *.
    set (pos := fun n => match nth_error l n with
      | None => None
      | Some (c, q) => match fa q with Some _ => Some (length (chosen fa (firstn n l))) | None => match fb q with Some _ => Some (length (chosen fa l) + length (chosen fb (firstn n l))) | None => None end end end).
    set (T := map (fun x => sa (snd x)) (chosen fa l) ++ map (fun x => sb (snd x)) (chosen fb l)).
    assert (Lt : forall n c q a, nth_error l n = Some (c, q) -> fa q = Some a -> length (chosen fa (firstn n l)) < length (chosen fa l)).
    { intros n c q a H E. apply nth_error_Some. rewrite (chosen_at fa _ _ _ _ _ H E). discriminate. }
    assert (Inj : forall n n' m, pos n = Some m -> pos n' = Some m -> n = n').
    { unfold pos. intros n n' m Hn Hn'. destruct (nth_error l n) as [[c q]|] eqn:E; [|discriminate]. destruct (nth_error l n') as [[c' q']|] eqn:E'; [|discriminate].
      destruct (fa q) as [a|] eqn:Ea, (fa q') as [a'|] eqn:Ea'.
      - assert (X := chosen_at fa _ _ _ _ _ E Ea). assert (X' := chosen_at fa _ _ _ _ _ E' Ea'). injection Hn as Hn. injection Hn' as Hn'. rewrite Hn in X. rewrite Hn' in X'. rewrite X in X'. injection X' as <- _. eapply (nodup_nth fst); eauto.
      - assert (X := Lt _ _ _ _ E Ea). destruct (fb q'); [|discriminate]. injection Hn as Hn. injection Hn' as Hn'. lia.
      - assert (X := Lt _ _ _ _ E' Ea'). destruct (fb q); [|discriminate]. injection Hn as Hn. injection Hn' as Hn'. lia.
      - destruct (fb q) as [b|] eqn:Eb, (fb q') as [b'|] eqn:Eb'; try discriminate. injection Hn as Hn. injection Hn' as Hn'.
        assert (X := chosen_at fb _ _ _ _ _ E Eb). assert (X' := chosen_at fb _ _ _ _ _ E' Eb'). assert (Y : length (chosen fb (firstn n l)) = length (chosen fb (firstn n' l))) by lia.
        rewrite Y, X' in X. injection X as -> _. eapply (nodup_nth fst); eauto. }
    assert (Mt : matches pick pos (threads start l) T).
    { intros n p Hn. unfold threads in Hn. rewrite nth_error_map in Hn. unfold pos. destruct (nth_error l n) as [[c q]|] eqn:E; [|discriminate]. cbn in Hn. injection Hn as <-. rewrite Hstart.
      destruct (fa q) as [a|] eqn:Ea; [|destruct (fb q) as [b|] eqn:Eb; [|reflexivity]].
      - exists (sa a). split; [reflexivity|]. unfold T. rewrite nth_error_app1 by (rewrite map_length; eapply Lt; eassumption). rewrite nth_error_map, (chosen_at fa _ _ _ _ _ E Ea). reflexivity.
      - exists (sb b). split; [reflexivity|]. unfold T. rewrite nth_error_app2 by (rewrite map_length; lia). rewrite map_length. replace (_ + _ - _) with (length (chosen fb (firstn n l))) by lia. rewrite nth_error_map, (chosen_at fb _ _ _ _ _ E Eb). reflexivity. }
    destruct (simulate step step' view pick Hpick Hother pos s0 _ _ Mt Inj fsched) as (sched' & V1 & V2 & V3).
    exists (chosen fa l), (chosen fb l), sched'. fold T. split; [exact (chosen_nodup fa l F2)|]. split; [exact (chosen_nodup fb l F2)|]. split; [rewrite F1; exact V1|].
    assert (Back : forall (C : Type) (f : Q -> option C) n c x, nth_error (chosen f l) n = Some (c, x) -> exists m q, nth_error l m = Some (c, q) /\ f q = Some x /\ n = length (chosen f (firstn m l))).
    { intros C f n c x H. assert (I := nth_error_In _ _ H). apply chosen_in in I as (q & I & E). apply In_nth_error in I as [m Hm]. exists m, q. split; [exact Hm|]. split; [exact E|].
      assert (X := chosen_at f _ _ _ _ _ Hm E). eapply (nodup_nth fst); [exact (chosen_nodup f l F2)|exact H|exact X|reflexivity]. }
    assert (Keep : forall n c q m, nth_error l n = Some (c, q) -> pos n = Some m -> exists p p', made (snd W) (fst c) (snd c) q p /\ pick p = Some p' /\ nth_error (snd (run_threads step' (view s0, T) sched')) m = Some p').
    { intros n [i k] q m Hn Hp. destruct (F3 _ _ _ _ Hn) as (p & Hm & Hy). assert (G := V2 n p Hy). rewrite Hp in G. destruct G as (p' & G1 & G2). exists p, p'. auto. }
    split; [|split; [|split; [|split]]].
    - intros n i k a H. destruct (Back _ fa _ _ _ H) as (m & q & Hm & E & ->). destruct (Keep m (i, k) q (length (chosen fa (firstn m l))) Hm) as (p & p' & K1 & K2 & K3); [unfold pos; rewrite Hm, E; reflexivity|].
      exists q, p, p'. auto.
    - intros n i k b H. destruct (Back _ fb _ _ _ H) as (m & q & Hm & E & ->). destruct (Keep m (i, k) q (length (chosen fa l) + length (chosen fb (firstn m l))) Hm) as (p & p' & K1 & K2 & K3).
      { unfold pos. rewrite Hm. destruct (fa q) as [a|] eqn:Ea; [rewrite (Hone _ _ Ea) in E; discriminate|]. rewrite E. reflexivity. }
      exists q, p, p'. auto.
    - intros i k q p a H E. apply chosen_in. exists q. split; [eauto|exact E].
    - intros i k q p b H E. apply chosen_in. exists q. split; [eauto|exact E].
    - intros a b E. destruct (V3 a b E) as (c & e & -> & G). destruct (Fm c e eq_refl) as (c' & e' & E' & G'). exists c', e'. split; [exact E'|]. rewrite <- G'. exact G.
  Qed.
End Parts.

(** ** how long a call takes *)
Section Progress.
  Context {S P Q : Type} (step : S -> P -> S * P) (start : Q -> P) (returned : P -> bool).
  Definition over (W : list (worker P Q)) : Prop := forall i w p, nth_error W i = Some w -> In p (wk_done w) -> returned p = true.
  Notation one := (step_at (wk_step step start returned)).
  Lemma over_step st j : over (snd st) -> over (snd (one st j)).
  Proof.
    intros H. unfold step_at. destruct (nth_error (snd st) j) as [w|] eqn:Ej; [|exact H]. intros i v p Hv Hp.
    destruct (wk_step step start returned (fst st) w) as [s' w'] eqn:Es. cbn [snd] in Hv. destruct (Nat.eq_dec i j) as [->|N]; [|rewrite (set_other _ _ _ _ _ Ej N) in Hv; exact (H _ _ _ Hv Hp)].
    rewrite (set_same _ _ _ _ Ej) in Hv. injection Hv as <-. unfold wk_step in Es. destruct (wk_current w) as [q|] eqn:Ec.
    - destruct (returned q) eqn:Er.
      + injection Es as <- <-. cbn [wk_done] in Hp. apply in_app_or in Hp as [Hp|[<-|[]]]; [exact (H _ _ _ Ej Hp)|exact Er].
      + destruct (step (fst st) q). injection Es as <- <-. exact (H _ _ _ Ej Hp).
    - destruct (wk_next w (wk_done w)); injection Es as <- <-; exact (H _ _ _ Ej Hp).
  Qed.
  (** a call that was made is where it was, or has moved on by one step if its thread moved *)
  Lemma made_step st j i k q p : over (snd st) -> made (snd st) i k q p ->
    (made (snd (one st j)) i k q p /\ (i = j -> returned p = true)) \/
    (i = j /\ returned p = false /\ fst (one st j) = fst (step (fst st) p) /\ made (snd (one st j)) i k q (snd (step (fst st) p))).
  Proof.
    intros Ho (w & Hw & Hk & Hq). unfold step_at. destruct (nth_error (snd st) j) as [v|] eqn:Ej; [|left; split; [exists w; repeat split; assumption|intros ->; congruence]].
    destruct (Nat.eq_dec i j) as [->|N].
    2: { left. split; [|intros; contradiction]. destruct (wk_step step start returned (fst st) v) as [s' v']. cbn [snd]. exists w. rewrite (set_other _ _ _ _ _ Ej N). repeat split; assumption. }
    rewrite Hw in Ej. injection Ej as <-. unfold wk_step. unfold calls_of in Hk. destruct (Nat.lt_ge_cases k (length (wk_done w))) as [L|L].
    - (* over already *)
      rewrite nth_error_app1 in Hk by exact L. left. split; [|intros _; apply (Ho _ _ _ Hw); eapply nth_error_In; exact Hk].
      assert (Keep : forall w', wk_next w' = wk_next w -> (exists more, wk_done w' = wk_done w ++ more) -> made_by w' k q p).
      { intros w' E [more Em]. split; [unfold calls_of; rewrite Em, <- app_assoc, nth_error_app1 by exact L; exact Hk|]. rewrite E, Em, firstn_app. replace (k - length (wk_done w)) with 0 by lia. cbn [firstn]. rewrite app_nil_r. exact Hq. }
      destruct (wk_current w) as [c|]; [destruct (returned c); [|destruct (step (fst st) c)]|destruct (wk_next w (wk_done w))]; cbn [snd]; eexists; (split; [apply (set_same _ _ _ _ Hw)|]); apply Keep; try reflexivity; first [eexists; reflexivity|exists []; rewrite app_nil_r; reflexivity].
    - rewrite nth_error_app2 in Hk by exact L. destruct (wk_current w) as [c|] eqn:Ec; [|destruct (k - _); discriminate]. destruct (k - length (wk_done w)) as [|n] eqn:Ed; [|destruct n; discriminate]. injection Hk as ->. assert (k = length (wk_done w)) by lia. subst k. rewrite firstn_all in Hq.
      destruct (returned p) eqn:Er; cbn [snd fst].
      + left. split; [|reflexivity]. eexists. split; [apply (set_same _ _ _ _ Hw)|]. split; [unfold calls_of; cbn [wk_done wk_current]; rewrite app_nil_r, nth_error_app2, Nat.sub_diag by lia; reflexivity|].
        cbn [wk_next wk_done]. rewrite firstn_app, firstn_all, Nat.sub_diag. cbn [firstn]. rewrite app_nil_r. exact Hq.
      + right. split; [reflexivity|]. split; [reflexivity|]. destruct (step (fst st) p) as [s' p']. cbn [fst snd]. split; [reflexivity|]. eexists. split; [apply (set_same _ _ _ _ Hw)|].
        split; [unfold calls_of; cbn [wk_done wk_current]; rewrite nth_error_app2, Nat.sub_diag by lia; reflexivity|]. cbn [wk_next wk_done]. rewrite firstn_all. exact Hq.
  Qed.
  (** and every call is one that had been made, or one that starts now *)
  Lemma made_back st j i k q p : over (snd st) -> made (snd (one st j)) i k q p -> (exists p0, made (snd st) i k q p0) \/ p = start q.
  Proof.
    intros Ho. unfold step_at. destruct (nth_error (snd st) j) as [v|] eqn:Ej; [|eauto]. destruct (wk_step step start returned (fst st) v) as [s' v'] eqn:Es. cbn [snd]. intros (w & Hw & Hk & Hq).
    destruct (Nat.eq_dec i j) as [->|N]; [|rewrite (set_other _ _ _ _ _ Ej N) in Hw; left; exists p, w; repeat split; assumption].
    rewrite (set_same _ _ _ _ Ej) in Hw. injection Hw as <-. unfold wk_step in Es. destruct (wk_current v) as [c|] eqn:Ec; [destruct (returned c) eqn:Er; [|destruct (step (fst st) c) as [s2 c2]]|destruct (wk_next v (wk_done v)) as [q'|] eqn:Eq]; injection Es as <- <-; unfold calls_of in Hk; cbn [wk_next wk_done wk_current] in *.
    - left. exists p, v. split; [exact Ej|]. rewrite app_nil_r in Hk. assert (k < length (wk_done v ++ [c])) by (apply nth_error_Some; congruence). rewrite app_length in H. cbn in H. split; [unfold calls_of; rewrite Ec; exact Hk|].
      rewrite firstn_app in Hq. replace (k - length (wk_done v)) with 0 in Hq by lia. cbn [firstn] in Hq. rewrite app_nil_r in Hq. exact Hq.
    - left. destruct (Nat.lt_ge_cases k (length (wk_done v))) as [L|L].
      + rewrite nth_error_app1 in Hk by exact L. exists p, v. split; [exact Ej|]. split; [unfold calls_of; rewrite nth_error_app1 by exact L; exact Hk|exact Hq].
      + rewrite nth_error_app2 in Hk by exact L. destruct (k - length (wk_done v)) as [|n] eqn:Ed; [|destruct n; discriminate]. exists c, v. split; [exact Ej|]. split; [unfold calls_of; rewrite Ec, nth_error_app2, Ed by exact L; reflexivity|exact Hq].
    - destruct (Nat.lt_ge_cases k (length (wk_done v))) as [L|L].
      + left. rewrite nth_error_app1 in Hk by exact L. exists p, v. split; [exact Ej|]. split; [unfold calls_of; rewrite nth_error_app1 by exact L; exact Hk|exact Hq].
      + right. rewrite nth_error_app2 in Hk by exact L. destruct (k - length (wk_done v)) as [|n] eqn:Ed; [|destruct n; discriminate]. assert (k = length (wk_done v)) by lia. subst k. rewrite firstn_all, Eq in Hq. injection Hq as ->. injection Hk as <-. reflexivity.
    - left. exists p, v. split; [exact Ej|]. split; [unfold calls_of; exact Hk|exact Hq].
  Qed.
  (** size: how much there is to go through; m n p: an upper bound for the steps that the call has still to make while the size is at most n *)
  Variables (size : S -> nat) (m : nat -> P -> nat) (cost : nat -> Q -> nat).
  Hypothesis Hgrow : forall s p, size s <= size (fst (step s p)).
  Hypothesis Hm : forall n s p, size s <= n -> m n (snd (step s p)) <= pred (m n p).
  Hypothesis Hover : forall n p, m n p = 0 -> returned p = true.
  Hypothesis Hback : forall n p, returned p = true -> m n p = 0.
  Hypothesis Hcost : forall n q, m n (start q) <= cost n q.
  Lemma size_one st j : size (fst st) <= size (fst (one st j)).
  Proof.
    unfold step_at. destruct (nth_error (snd st) j) as [w|]; [|lia]. unfold wk_step. destruct (wk_current w) as [p|]; [destruct (returned p); [cbn; lia|]|destruct (wk_next w (wk_done w)); cbn; lia].
    assert (G := Hgrow (fst st) p). destruct (step (fst st) p). exact G.
  Qed.
  Lemma progress_from n i k q : forall sched st p, over (snd st) -> size (fst (run_threads (wk_step step start returned) st sched)) <= n -> made (snd st) i k q p ->
    exists p', made (snd (run_threads (wk_step step start returned) st sched)) i k q p' /\ m n p' <= m n p - count_runs i sched.
  Proof.
    induction sched as [|j sched IH] using rev_ind; intros st p Ho Hn Hp; [exists p; split; [exact Hp|unfold count_runs; cbn; lia]|].
    rewrite run_app in *. cbn [run_threads fold_left] in *. set (st1 := run_threads (wk_step step start returned) st sched) in *. change (fold_left one sched st) with st1 in *.
    assert (O1 : over (snd st1)) by (apply (run_invariant (wk_step step start returned) (fun st => over (snd st))); [intros s j' H; apply over_step; exact H|exact Ho]).
    destruct (IH st p Ho) as (p1 & G1 & G2); [eapply Nat.le_trans; [apply size_one|exact Hn]|exact Hp|]. unfold count_runs in *. rewrite count_occ_app. cbn [count_occ].
    destruct (made_step st1 j i k q p1 O1 G1) as [[G3 G4]|(-> & G3 & G4 & G5)].
    - exists p1. split; [exact G3|]. destruct (Nat.eq_dec j i) as [->|]; [|lia]. rewrite (Hback n p1 (G4 eq_refl)). lia.
    - eexists. split; [exact G5|]. assert (X := Hm n (fst st1) p1). destruct (Nat.eq_dec j j) as [_|]; [|contradiction]. enough (size (fst st1) <= n) by (specialize (X H); lia). eapply Nat.le_trans; [apply size_one|exact Hn].
  Qed.
  Lemma cost_run (strats : list (strategy P Q)) s0 n : forall sched i k q p, size (fst (wk_run step start returned (s0, map new_worker strats) sched)) <= n ->
    made (snd (wk_run step start returned (s0, map new_worker strats) sched)) i k q p -> m n p <= cost n q.
  Proof.
    assert (O0 : over (map (new_worker (P := P) (Q := Q)) strats)) by (intros i w p Hw Hp; apply nth_error_In, in_map_iff in Hw as (f & <- & _); destruct Hp).
    induction sched as [|j sched IH] using rev_ind; intros i k q p Hn Hp; unfold wk_run in *.
    - destruct Hp as (w & Hw & Hk & _). apply nth_error_In, in_map_iff in Hw as (f & <- & _). destruct k; discriminate.
    - rewrite run_app in *. cbn [run_threads fold_left] in *. set (st1 := run_threads (wk_step step start returned) (s0, map new_worker strats) sched) in *. change (fold_left one sched (s0, map new_worker strats)) with st1 in *.
      assert (O1 : over (snd st1)) by (apply (run_invariant (wk_step step start returned) (fun st => over (snd st))); [intros s j' H; apply over_step; exact H|exact O0]).
      assert (N1 : size (fst st1) <= n) by (eapply Nat.le_trans; [apply size_one|exact Hn]).
      destruct (made_back st1 j i k q p O1 Hp) as [[p0 G]| ->]; [|apply Hcost]. assert (B := IH i k q p0 N1 G).
      assert (Uniq : forall p1, made (snd (one st1 j)) i k q p1 -> p1 = p) by (intros p1 (w1 & A1 & A2 & _); destruct Hp as (w2 & B1 & B2 & _); congruence).
      destruct (made_step st1 j i k q p0 O1 G) as [[G3 _]|(-> & G3 & G4 & G5)].
      + rewrite <- (Uniq _ G3). exact B.
      + rewrite <- (Uniq _ G5). assert (X := Hm n (fst st1) p0 N1). lia.
  Qed.
  Theorem wait_free (strats : list (strategy P Q)) s0 s1 s2 i k q p :
    let n := size (fst (wk_run step start returned (s0, map new_worker strats) (s1 ++ s2))) in
    made (snd (wk_run step start returned (s0, map new_worker strats) s1)) i k q p -> cost n q <= count_runs i s2 ->
    exists p', made (snd (wk_run step start returned (s0, map new_worker strats) (s1 ++ s2))) i k q p' /\ returned p' = true.
  Proof.
    cbv zeta. intros Hp Hc. set (n := size _) in *.
    assert (O0 : over (map (new_worker (P := P) (Q := Q)) strats)) by (intros i' w p' Hw Hp'; apply nth_error_In, in_map_iff in Hw as (f & <- & _); destruct Hp').
    assert (G : exists p', made (snd (wk_run step start returned (s0, map new_worker strats) (s1 ++ s2))) i k q p' /\ m n p' <= m n p - count_runs i s2).
    { unfold wk_run at 1. rewrite run_app. apply progress_from; [|unfold n, wk_run; rewrite run_app; apply Nat.le_refl|exact Hp]. apply (run_invariant (wk_step step start returned) (fun st => over (snd st))); [intros s j' H; apply over_step; exact H|exact O0]. }
    assert (B : m n p <= cost n q).
    { eapply cost_run; [|exact Hp]. unfold n, wk_run. rewrite run_app. generalize (run_threads (wk_step step start returned) (s0, map new_worker strats) s1). intros st.
      apply (run_invariant (wk_step step start returned) (fun st' => size (fst st) <= size (fst st'))); [|lia]. intros st' j H. eapply Nat.le_trans; [exact H|apply size_one]. }
    destruct G as (p' & G1 & G2). exists p'. split; [exact G1|]. apply (Hover n). lia.
  Qed.
End Progress.
