(** * ConcurrentFacts: invariants of the concurrent programs of Concurrent.v *)
From Verif Require Import PyBase PyBaseFacts Relations Logic Data Words Dictionary Lexicon Concurrent SpecProps SpecDictionary WordFacts DictFacts.
From Coq Require Import Lia Permutation.

Lemma set_nth_at {A} (l : list A) j x i a : nth_error l j = Some a -> nth_error (list_set j x l) i = if Nat.eqb i j then Some x else nth_error l i.
Proof.
  intros H. rewrite list_set_nth, (Nat.eqb_sym j i). destruct (Nat.eqb i j) eqn:E; [|reflexivity]. apply Nat.eqb_eq in E. subst i.
  assert (L : (j < length l)%nat) by (apply nth_error_Some; congruence). apply Nat.ltb_lt in L. rewrite L. reflexivity.
Qed.
Lemma run_app {S P} (step : S -> P -> S * P) st s1 s2 : run_threads step st (s1 ++ s2) = run_threads step (run_threads step st s1) s2.
Proof. unfold run_threads. apply fold_left_app. Qed.
(** a relation kept by every step of every thread is kept by every schedule *)
Lemma run_invariant {S P} (step : S -> P -> S * P) (I : S * list P -> Prop) :
  (forall st i, I st -> I (step_at step st i)) -> forall sched st, I st -> I (run_threads step st sched).
Proof. intros H sched. induction sched as [|i sched IH]; intros st Hi; [exact Hi|]. cbn. apply IH, H, Hi. Qed.
Definition count_runs (i : nat) (schedule : list nat) : nat := count_occ Nat.eq_dec schedule i.
(** progress: a thread whose measure decreases with each of its own steps *)
Lemma run_measure {S P} (step : S -> P -> S * P) (m : P -> nat) :
  (forall s pc, m (snd (step s pc)) <= pred (m pc)) ->
  forall sched st i pc, nth_error (snd st) i = Some pc ->
    exists pc', nth_error (snd (run_threads step st sched)) i = Some pc' /\ m pc' <= m pc - count_runs i sched.
Proof.
  intros H sched. induction sched as [|j sched IH]; intros st i pc Hi.
  - exists pc. split; [exact Hi|]. unfold count_runs. cbn. lia.
  - cbn [run_threads fold_left]. change (fold_left (step_at step) sched (step_at step st j)) with (run_threads step (step_at step st j) sched).
    assert (E : exists pc1, nth_error (snd (step_at step st j)) i = Some pc1 /\ m pc1 <= m pc - (if Nat.eqb i j then 1 else 0)).
    { unfold step_at. destruct (nth_error (snd st) j) as [q|] eqn:Ej.
      - specialize (H (fst st) q). destruct (step (fst st) q) as [s' q']. cbn [snd fst] in *. rewrite (set_nth_at _ _ _ _ _ Ej). destruct (Nat.eqb_spec i j) as [->|].
        + exists q'. split; [reflexivity|]. rewrite Ej in Hi. injection Hi as ->. lia.
        + exists pc. split; [exact Hi|lia].
      - exists pc. split; [exact Hi|]. destruct (Nat.eqb_spec i j) as [->|]; [congruence|lia]. }
    destruct E as (pc1 & E1 & E2). destruct (IH _ _ _ E1) as (pc2 & F1 & F2). exists pc2. split; [exact F1|]. unfold count_runs in *. cbn [count_occ].
    destruct (Nat.eq_dec j i) as [->|Hne]; [rewrite Nat.eqb_refl in E2; lia|]. destruct (Nat.eqb_spec i j); [congruence|lia].
Qed.

(** ** add_word *)
Section AddWord.
  Context (U : unicode).
  Definition known (d : dictionary) (t : str) : Prop := dget str_eqb t d <> None.
  Lemma known_has d t : known d t <-> has_word d t = true.
  Proof. unfold known, has_word, dmem. destruct (dget str_eqb t d); split; congruence. Qed.

  (** [dn]: the word forms the thread has dealt with *)
  Definition aw_local (d : dictionary) (l dn : list wordform) (pc : aw_pc) : Prop :=
    (forall f, In f dn -> exists t, wf_form U f = Ok t /\ known d t) /\
    match pc with
    | AW_next fs => l = dn ++ fs
    | AW_insert f t rest => l = dn ++ f :: rest /\ wf_form U f = Ok t
    | AW_read f t rest | AW_replace f t rest => l = dn ++ f :: rest /\ wf_form U f = Ok t /\ known d t
    | AW_done r => exists rest, l = dn ++ rest /\ ((rest = [] /\ r = Ok tt) \/ exists f rest' e, rest = f :: rest' /\ wf_form U f = Err e /\ r = Err e)
    end.
  Record aw_inv (d0 : dictionary) (ls : list (list wordform)) (dns : list (list wordform)) (st : dictionary * list aw_pc) : Prop := {
    ai_len : length (snd st) = length ls; ai_len' : length dns = length ls;
    ai_local : forall i l dn pc, nth_error ls i = Some l -> nth_error dns i = Some dn -> nth_error (snd st) i = Some pc -> aw_local (fst st) l dn pc;
    ai_mono : forall t, known d0 t -> known (fst st) t;
    ai_sound : forall t f, dget str_eqb t (fst st) = Some f -> dget str_eqb t d0 = Some f \/ (wf_form U f = Ok t /\ exists i dn, nth_error dns i = Some dn /\ In f dn) }.

  Lemma known_dset d t t' f : known d t -> known (dset str_eqb t' f d) t.
  Proof. unfold known. intros H. rewrite (dget_dset _ str_eqb_ok). destruct (str_eqb t' t); [discriminate|exact H]. Qed.
  Lemma known_dset_same d t f : known (dset str_eqb t f d) t.
  Proof. unfold known. rewrite (dget_dset_same _ str_eqb_ok). discriminate. Qed.
  Lemma aw_local_mono d d' l dn pc : (forall t, known d t -> known d' t) -> aw_local d l dn pc -> aw_local d' l dn pc.
  Proof.
    intros H [A B]. split; [intros f Hf; destruct (A f Hf) as (t & ? & ?); exists t; auto|]. destruct pc; auto; destruct B as (? & ? & ?); auto.
  Qed.

  (** one step: what becomes of the thread and of the dictionary *)
  Lemma aw_step_local d l dn pc : aw_local d l dn pc ->
    let st := aw_step U d pc in (forall t, known d t -> known (fst st) t) /\
    ((fst st = d /\ aw_local (fst st) l dn (snd st)) \/
     (exists f t, (fst st = dset str_eqb t f d \/ fst st = d /\ known d t) /\ wf_form U f = Ok t /\ aw_local (fst st) l (dn ++ [f]) (snd st) )).
  Proof.
    assert (Snoc : forall d' dn f t, (forall g, In g dn -> exists t, wf_form U g = Ok t /\ known d' t) -> wf_form U f = Ok t -> known d' t ->
        forall g, In g (dn ++ [f]) -> exists t, wf_form U g = Ok t /\ known d' t).
    { intros d' dn' f t A Hf Ht g Hg. apply in_app_iff in Hg as [Hg|[<-|[]]]; [apply A, Hg|exists t; auto]. }
    intros [A B]. destruct pc as [[|f fs]|f t rest|f t rest|f t rest|r]; cbn [aw_step fst snd] in *.
    - split; [auto|]. left. split; [reflexivity|]. split; [exact A|]. exists []. auto.
    - split; [auto|]. left. split; [reflexivity|]. destruct (wf_form U f) as [t|e] eqn:Ef.
      + destruct (dmem str_eqb t d) eqn:Em; (split; [exact A|]); repeat split; auto. apply known_has. exact Em.
      + split; [exact A|]. exists (f :: fs). split; [exact B|]. right. exists f, fs, e. auto.
    - destruct B as [B1 B2]. split; [intros; apply known_dset; assumption|]. right. exists f, t. split; [left; reflexivity|]. split; [exact B2|]. split.
      + apply (Snoc _ _ _ t); auto; [intros g Hg; destruct (A g Hg) as (s & ? & ?); exists s; split; [assumption|apply known_dset; assumption]|apply known_dset_same].
      + rewrite <- app_assoc. exact B1.
    - destruct B as (B1 & B2 & B3). split; [auto|]. destruct (dget str_eqb t d) as [r|] eqn:Er; [|contradiction]. destruct (replaces f r).
      + left. split; [reflexivity|]. split; [exact A|]. auto.
      + right. exists f, t. split; [right; auto|]. split; [exact B2|]. split; [apply (Snoc _ _ _ t); auto|]. rewrite <- app_assoc. exact B1.
    - destruct B as (B1 & B2 & B3). split; [intros; apply known_dset; assumption|]. right. exists f, t. split; [left; reflexivity|]. split; [exact B2|]. split.
      + apply (Snoc _ _ _ t); auto; [intros g Hg; destruct (A g Hg) as (s & ? & ?); exists s; split; [assumption|apply known_dset; assumption]|apply known_dset_same].
      + rewrite <- app_assoc. exact B1.
    - split; [auto|]. left. split; [reflexivity|]. split; [exact A|exact B].
  Qed.

  Lemma aw_inv_step d0 ls dns st i : aw_inv d0 ls dns st -> exists dns', aw_inv d0 ls dns' (step_at (aw_step U) st i).
  Proof.
    intros [L1 L2 HL HM HS]. unfold step_at. destruct (nth_error (snd st) i) as [pc|] eqn:Ei; [|exists dns; split; assumption].
    assert (Hi : i < length ls) by (rewrite <- L1; apply nth_error_Some; congruence).
    destruct (nth_error ls i) as [l|] eqn:El; [|apply nth_error_None in El; lia].
    destruct (nth_error dns i) as [dn|] eqn:Ed; [|apply nth_error_None in Ed; lia].
    pose proof (aw_step_local _ _ _ _ (HL i l dn pc El Ed Ei)) as [M C]. destruct (aw_step U (fst st) pc) as [d' pc']. cbn [fst snd] in *.
    destruct C as [[E1 C]|(f & t & E1 & Ef & C)].
    - exists dns. subst d'. split; cbn [fst snd]; auto.
      + rewrite list_set_length. exact L1.
      + intros j l' dn' pc0 H1 H2 H3. rewrite (set_nth_at _ _ _ _ _ Ei) in H3. destruct (Nat.eqb_spec j i) as [->|]; [|eapply HL; eassumption].
        injection H3 as <-. rewrite El in H1. injection H1 as <-. rewrite Ed in H2. injection H2 as <-. exact C.
    - exists (list_set i (dn ++ [f]) dns). split; cbn [fst snd]; auto.
      + rewrite list_set_length. exact L1.
      + rewrite list_set_length. exact L2.
      + intros j l' dn' pc0 H1 H2 H3. rewrite (set_nth_at _ _ _ _ _ Ei) in H3. rewrite (set_nth_at _ _ _ _ _ Ed) in H2. destruct (Nat.eqb_spec j i) as [->|].
        * injection H3 as <-. injection H2 as <-. rewrite El in H1. injection H1 as <-. exact C.
        * eapply aw_local_mono; [exact M|]. eapply HL; eassumption.
      + intros s g Hg. assert (Old : dget str_eqb s (fst st) = Some g -> dget str_eqb s d0 = Some g \/ wf_form U g = Ok s /\ exists j dn', nth_error (list_set i (dn ++ [f]) dns) j = Some dn' /\ In g dn').
        { intros Hg'. destruct (HS s g Hg') as [H|(H & j & dn' & H1 & H2)]; [left; exact H|]. right. split; [exact H|]. exists j. rewrite (set_nth_at _ _ _ _ _ Ed).
          destruct (Nat.eqb_spec j i) as [->|]; [|exists dn'; auto]. exists (dn ++ [f]). split; [reflexivity|]. rewrite Ed in H1. injection H1 as <-. apply in_app_iff. auto. }
        destruct E1 as [->|[-> _]]; [|auto]. rewrite (dget_dset _ str_eqb_ok) in Hg. destruct (str_eqb t s) eqn:Es; [|auto]. apply str_eqb_ok in Es. subst s. injection Hg as <-.
        right. split; [exact Ef|]. exists i. rewrite (set_nth_at _ _ _ _ _ Ed), Nat.eqb_refl. exists (dn ++ [f]). split; [reflexivity|]. apply in_app_iff. right. left. reflexivity.
  Qed.

  Lemma aw_inv_start d0 ls : aw_inv d0 ls (map (fun _ => []) ls) (d0, map AW_next ls).
  Proof.
    split; cbn [fst snd]; auto; try (rewrite map_length; reflexivity).
    intros i l dn pc H1 H2 H3. rewrite nth_error_map, H1 in H2, H3. injection H2 as <-. injection H3 as <-. split; [intros f []|reflexivity].
  Qed.
  Lemma aw_inv_run d0 ls sched : exists dns, aw_inv d0 ls dns (run_threads (aw_step U) (d0, map AW_next ls) sched).
  Proof. apply (run_invariant (aw_step U) (fun st => exists dns, aw_inv d0 ls dns st)); [intros st i [dns H]; eapply aw_inv_step; eassumption|]. eexists. apply aw_inv_start. Qed.

  (** ** the entry of one text, if one thread at most deals with it *)
  Lemma aw_mono pc d t : known d t -> known (fst (aw_step U d pc)) t.
  Proof. destruct pc as [[|f fs]|f s rest|f s rest|f s rest|r]; cbn; auto; apply known_dset. Qed.
  Lemma aw_run_mono st t sched : known (fst st) t -> known (fst (run_threads (aw_step U) st sched)) t.
  Proof.
    intros H. apply (run_invariant (aw_step U) (fun st => known (fst st) t)); [|exact H]. intros s i Hs. unfold step_at.
    destruct (nth_error (snd s) i); [|exact Hs]. pose proof (aw_mono a (fst s) t Hs). destruct (aw_step U (fst s) a). exact H0.
  Qed.

  Definition aw_text (pc : aw_pc) : list wordform := match pc with AW_next fs => fs | AW_insert f _ r | AW_read f _ r | AW_replace f _ r => f :: r | AW_done _ => [] end.
  (** forms up to the first one without a text *)
  Fixpoint ok_prefix (fs : list wordform) : list wordform :=
    match fs with [] => [] | f :: r => match wf_form U f with Ok _ => f :: ok_prefix r | Err _ => [] end end.
  (** a thread none of whose pending forms has the text t leaves it alone *)
  Definition aloof (t : str) (pc : aw_pc) : Prop :=
    (forall f, In f (ok_prefix (aw_text pc)) -> wf_form U f <> Ok t) /\ match pc with AW_insert f s _ | AW_read f s _ | AW_replace f s _ => wf_form U f = Ok s | _ => True end.
  Lemma ok_prefix_cons f s rest : wf_form U f = Ok s -> ok_prefix (f :: rest) = f :: ok_prefix rest.
  Proof. intros H. cbn. rewrite H. reflexivity. Qed.
  Lemma aloof_step t d pc : aloof t pc -> aloof t (snd (aw_step U d pc)) /\ dget str_eqb t (fst (aw_step U d pc)) = dget str_eqb t d.
  Proof.
    intros [A B]. destruct pc as [[|f fs]|f s rest|f s rest|f s rest|r]; cbn [aw_step fst snd aw_text] in *.
    - split; [|reflexivity]. split; [intros f []|exact I].
    - split; [|reflexivity]. destruct (wf_form U f) as [s|e] eqn:E; [|split; [intros g []|exact I]]. destruct (dmem str_eqb s d); (split; [exact A|exact E]).
    - rewrite (ok_prefix_cons _ _ _ B) in A. split; [split; [intros g Hg; apply A; right; exact Hg|exact I]|]. apply (dget_dset_other _ str_eqb_ok). intros ->. apply (A f); [left; reflexivity|exact B].
    - split; [|reflexivity]. destruct (dget str_eqb s d); [|split; [intros g []|exact I]]. destruct (replaces f w); [split; [exact A|exact B]|]. rewrite (ok_prefix_cons _ _ _ B) in A. split; [intros g Hg; apply A; right; exact Hg|exact I].
    - rewrite (ok_prefix_cons _ _ _ B) in A. split; [split; [intros g Hg; apply A; right; exact Hg|exact I]|]. apply (dget_dset_other _ str_eqb_ok). intros ->. apply (A f); [left; reflexivity|exact B].
    - split; [|reflexivity]. split; [intros g []|exact I].
  Qed.
  Lemma aloof_run t st sched : Forall (aloof t) (snd st) ->
    Forall (aloof t) (snd (run_threads (aw_step U) st sched)) /\ dget str_eqb t (fst (run_threads (aw_step U) st sched)) = dget str_eqb t (fst st).
  Proof.
    intros H. apply (run_invariant (aw_step U) (fun s => Forall (aloof t) (snd s) /\ dget str_eqb t (fst s) = dget str_eqb t (fst st))); [|auto]. clear H.
    intros s i [H E]. unfold step_at. destruct (nth_error (snd s) i) as [pc|] eqn:Ei; [|auto].
    rewrite Forall_forall in H. destruct (aloof_step t (fst s) pc (H pc (nth_error_In _ _ Ei))) as [H1 H2]. destruct (aw_step U (fst s) pc) as [d' pc']. cbn [fst snd] in *.
    split; [|congruence]. apply Forall_forall. intros q Hq. apply In_nth_error in Hq as [j Hj]. rewrite (set_nth_at _ _ _ _ _ Ei) in Hj. destruct (Nat.eqb j i); [injection Hj as <-; exact H1|]. apply H, (nth_error_In _ _ Hj).
  Qed.

  (** the one thread that deals with t: together with what it still has to do, the entry is the sequential one *)
  Definition entry_goal (t : str) (d : dictionary) (pc : aw_pc) : option wordform :=
    match pc with
    | AW_next fs => fold_left (best_step U t) (ok_prefix fs) (dget str_eqb t d)
    | AW_insert f s rest | AW_replace f s rest => fold_left (best_step U t) (ok_prefix rest) (if str_eqb s t then Some f else dget str_eqb t d)
    | AW_read f s rest => fold_left (best_step U t) (f :: ok_prefix rest) (dget str_eqb t d)
    | AW_done _ => dget str_eqb t d
    end.
  Definition local_text (d : dictionary) (pc : aw_pc) : Prop :=
    match pc with AW_insert f s _ => wf_form U f = Ok s | AW_read f s _ | AW_replace f s _ => wf_form U f = Ok s /\ known d s | _ => True end.
  Lemma entry_goal_step t d pc : local_text d pc -> entry_goal t (fst (aw_step U d pc)) (snd (aw_step U d pc)) = entry_goal t d pc.
  Proof.
    intros H. destruct pc as [[|f fs]|f s rest|f s rest|f s rest|r]; cbn [aw_step fst snd entry_goal local_text] in *; try reflexivity.
    - cbn [ok_prefix]. destruct (wf_form U f) as [s|e] eqn:E; [|reflexivity]. unfold dmem. destruct (dget str_eqb s d) eqn:Eg; [reflexivity|].
      cbn [entry_goal fold_left]. f_equal. unfold best_step. destruct (str_eqb s t) eqn:Es.
      + apply str_eqb_ok in Es. subst s. rewrite (proj2 (has_text_iff U t f) E), Eg. reflexivity.
      + assert (N : has_text U t f = false). { destruct (has_text U t f) eqn:Eh; [|reflexivity]. apply has_text_iff in Eh. rewrite E in Eh. injection Eh as ->. rewrite (proj2 (str_eqb_ok t t) eq_refl) in Es. discriminate. }
        rewrite N. reflexivity.
    - f_equal. apply (dget_dset _ str_eqb_ok).
    - destruct H as [E K]. unfold known in K. destruct (dget str_eqb s d) as [r|] eqn:Eg; [|congruence]. cbn [fold_left]. set (B := best_step U t (dget str_eqb t d) f). unfold best_step in B.
      destruct (str_eqb s t) eqn:Es.
      + apply str_eqb_ok in Es. subst s. unfold B. rewrite (proj2 (has_text_iff U t f) E), Eg. destruct (replaces f r); cbn [entry_goal].
        * rewrite (proj2 (str_eqb_ok t t) eq_refl). reflexivity.
        * rewrite Eg. reflexivity.
      + assert (N : has_text U t f = false). { destruct (has_text U t f) eqn:Eh; [|reflexivity]. apply has_text_iff in Eh. rewrite E in Eh. injection Eh as ->. rewrite (proj2 (str_eqb_ok t t) eq_refl) in Es. discriminate. }
        unfold B. rewrite N. destruct (replaces f r); cbn [entry_goal]; rewrite ?Es; reflexivity.
    - f_equal. apply (dget_dset _ str_eqb_ok).
  Qed.

  Lemma local_text_step d pc : local_text d pc -> local_text (fst (aw_step U d pc)) (snd (aw_step U d pc)).
  Proof.
    intros H. destruct pc as [[|f fs]|f s rest|f s rest|f s rest|r]; cbn [aw_step fst snd local_text] in *; try exact I.
    - destruct (wf_form U f) as [s|e] eqn:E; [|exact I]. unfold dmem. destruct (dget str_eqb s d) eqn:Eg; cbn [local_text]; [|exact E]. split; [exact E|]. unfold known. congruence.
    - destruct (dget str_eqb s d) eqn:Eg; [|exact I]. destruct (replaces f w); [exact H|exact I].
  Qed.
  Lemma local_text_mono d d' pc : (forall t, known d t -> known d' t) -> local_text d pc -> local_text d' pc.
  Proof. intros H. destruct pc; cbn [local_text]; intuition. Qed.
  Lemma entry_goal_other t d d' pc : dget str_eqb t d' = dget str_eqb t d -> entry_goal t d' pc = entry_goal t d pc.
  Proof. intros H. destruct pc; cbn [entry_goal]; rewrite H; reflexivity. Qed.

  Lemma one_thread_run t j st sched : (forall i pc, nth_error (snd st) i = Some pc -> local_text (fst st) pc /\ (i <> j -> aloof t pc)) ->
    let st' := run_threads (aw_step U) st sched in
    (forall i pc, nth_error (snd st') i = Some pc -> local_text (fst st') pc /\ (i <> j -> aloof t pc)) /\
    forall pc, nth_error (snd st) j = Some pc -> exists pc', nth_error (snd st') j = Some pc' /\ entry_goal t (fst st') pc' = entry_goal t (fst st) pc.
  Proof.
    intros H. cbv zeta. apply (run_invariant (aw_step U) (fun s =>
      (forall i pc, nth_error (snd s) i = Some pc -> local_text (fst s) pc /\ (i <> j -> aloof t pc)) /\
      forall pc, nth_error (snd st) j = Some pc -> exists pc', nth_error (snd s) j = Some pc' /\ entry_goal t (fst s) pc' = entry_goal t (fst st) pc)); [|split; [exact H|eauto]].
    clear H. intros s i [H E]. unfold step_at. destruct (nth_error (snd s) i) as [pc|] eqn:Ei; [|split; assumption]. destruct (H i pc Ei) as [HL HA].
    assert (M := fun x => aw_mono pc (fst s) x). pose proof (local_text_step _ _ HL) as HL'. pose proof (entry_goal_step t _ _ HL) as HG.
    assert (HA' := fun n => aloof_step t (fst s) pc (HA n)). destruct (aw_step U (fst s) pc) as [d' pc']. cbn [fst snd] in *. split.
    - intros k q Hk. rewrite (set_nth_at _ _ _ _ _ Ei) in Hk. destruct (Nat.eqb_spec k i) as [->|N].
      + injection Hk as <-. split; [exact HL'|]. intros n. apply HA', n.
      + destruct (H k q Hk) as [Q1 Q2]. split; [exact (local_text_mono _ _ _ M Q1)|exact Q2].
    - intros pcj Hj. destruct (E pcj Hj) as (q & Hq & Eq). rewrite (set_nth_at _ _ _ _ _ Ei). destruct (Nat.eqb_spec j i) as [->|N].
      + exists pc'. split; [reflexivity|]. rewrite Ei in Hq. injection Hq as <-. congruence.
      + exists q. split; [exact Hq|]. rewrite <- Eq. apply entry_goal_other. apply HA'. congruence.
  Qed.

  Lemma ok_prefix_registers w l lw : all_forms w = Ok l -> (registers U w lw <-> lw = ok_prefix l).
  Proof.
    intros Hl. assert (R : registers U w (ok_prefix l)).
    { assert (G : forall l, exists rest, l = ok_prefix l ++ rest /\ (forall f, In f (ok_prefix l) -> exists t, wf_form U f = Ok t) /\ (rest = [] \/ exists f r e, rest = f :: r /\ wf_form U f = Err e)).
      { clear. induction l as [|f l IH]; [exists []; cbn; intuition|]. cbn [ok_prefix]. destruct (wf_form U f) as [t|e] eqn:E.
        - destruct IH as (rest & IH1 & IH2 & IH3). exists rest. split; [cbn; congruence|]. split; [|exact IH3]. intros g [<-|Hg]; [exists t; exact E|apply IH2, Hg].
        - exists (f :: l). split; [reflexivity|]. split; [intros g []|]. right. exists f, l, e. auto. }
      destruct (G l) as (rest & G1 & G2 & G3). exists rest. split; [rewrite <- G1; exact Hl|]. split; assumption. }
    split; [intros H; eapply registers_fun; eassumption|intros ->; exact R].
  Qed.
  Lemma fold_best_skip t l acc : (forall f, In f l -> wf_form U f <> Ok t) -> fold_left (best_step U t) l acc = acc.
  Proof.
    revert acc. induction l as [|f l IH]; intros acc H; [reflexivity|]. cbn [fold_left]. rewrite IH by (intros g Hg; apply H; right; exact Hg).
    unfold best_step. destruct (has_text U t f) eqn:E; [|reflexivity]. apply has_text_iff in E. exfalso. apply (H f); [left; reflexivity|exact E].
  Qed.
  Lemma best_app t l l' : best U t (l ++ l') = fold_left (best_step U t) l' (best U t l).
  Proof. unfold best. apply fold_left_app. Qed.
End AddWord.

Lemma starts ws : Forall is_word ws -> exists ls, Forall2 (fun w l => all_forms w = Ok l) ws ls /\ map aw_start ws = map AW_next ls.
Proof.
  induction 1 as [|w ws Hw _ IH]; [exists []; split; constructor|]. destruct IH as (ls & H1 & H2).
  exists (map (slot_form w) (INVERTED_WORDS_CACHES (w_type w)) :: ls). assert (E := all_forms_eq w Hw). split; [constructor; assumption|].
  cbn [map]. rewrite <- H2. unfold aw_start. rewrite E. reflexivity.
Qed.
Lemma Forall2_nth {A B} (R : A -> B -> Prop) l l' i a : Forall2 R l l' -> nth_error l i = Some a -> exists b, nth_error l' i = Some b /\ R a b.
Proof. intros H. revert i. induction H as [|x y l l' Hxy H IH]; intros [|i] E; cbn in E; try discriminate; [injection E as ->; exists y; auto|apply IH, E]. Qed.
Lemma Forall2_nth' {A B} (R : A -> B -> Prop) l l' i b : Forall2 R l l' -> nth_error l' i = Some b -> exists a, nth_error l i = Some a /\ R a b.
Proof. intros H. revert i. induction H as [|x y l l' Hxy H IH]; intros [|i] E; cbn in E; try discriminate; [injection E as ->; exists x; auto|apply IH, E]. Qed.
