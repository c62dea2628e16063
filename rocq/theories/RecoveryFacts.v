(** * RecoveryFacts: lemmas about loading words again *)
From Coq Require Import Lia.
From Verif Require Import PyBase PyBaseFacts Relations Logic Data Words Dictionary Concurrent Interrupt
  SpecProps PropsFacts SpecSlots LookupFacts SlotFacts SpecDictionary WordFacts DictFacts SpecConcurrent ConcurrentFacts InterruptFacts SpecReload SpecRecovery PropConcurrent PropDictionary PropReload.

Section Fold.
  Context (U : unicode) (t : str).
  Notation step := (best_step U t).
  Lemma step_grows f g : exists g', step (Some g) f = Some g' /\ no_worse g g'.
  Proof.
    unfold best_step. destruct (has_text U t f); [|exists g; split; [reflexivity|left; reflexivity]].
    destruct (replaces f g) eqn:E; [|exists g; split; [reflexivity|left; reflexivity]]. exists f. split; [reflexivity|]. right. apply replaces_iff, E.
  Qed.
  Lemma fold_grows l : forall g, exists g', fold_left step l (Some g) = Some g' /\ no_worse g g'.
  Proof.
    induction l as [|f l IH]; intros g; [exists g; split; [reflexivity|left; reflexivity]|]. cbn [fold_left]. destruct (step_grows f g) as (g1 & -> & H1).
    destruct (IH g1) as (g2 & E & H2). exists g2. split; [exact E|eapply no_worse_trans; eassumption].
  Qed.
  Lemma not_worse f g g' : ~ preferred f g -> no_worse g g' -> ~ preferred f g'.
  Proof. intros H [->|P]; [exact H|]. intros Q. apply H. eapply preferred_trans; eassumption. Qed.
  Lemma fold_beats l : forall acc f, In f l -> wf_form U f = Ok t -> exists g, fold_left step l acc = Some g /\ ~ preferred f g.
  Proof.
    induction l as [|x l IH]; intros acc f Hf Ht; [destruct Hf|]. destruct Hf as [->|Hf]; [|exact (IH _ f Hf Ht)]. cbn [fold_left].
    assert (H : exists g, step acc f = Some g /\ ~ preferred f g).
    { unfold best_step. apply has_text_iff in Ht. rewrite Ht. destruct acc as [r|]; [|exists f; split; [reflexivity|apply preferred_irrefl]].
      destruct (replaces f r) eqn:E; [exists f; split; [reflexivity|apply preferred_irrefl]|]. exists r. split; [reflexivity|]. rewrite <- replaces_iff, E. discriminate. }
    destruct H as (g & -> & Hg). destruct (fold_grows l g) as (g' & E & N). exists g'. split; [exact E|eapply not_worse; eassumption].
  Qed.
  Lemma fold_in l : forall acc g, fold_left step l acc = Some g -> acc = Some g \/ (In g l /\ wf_form U g = Ok t).
  Proof.
    induction l as [|x l IH]; intros acc g H; [left; exact H|]. cbn [fold_left] in H. apply IH in H as [H|[H1 H2]]; [|right; split; [right; exact H1|exact H2]].
    unfold best_step in H. destruct (has_text U t x) eqn:E; [|left; exact H]. apply has_text_iff in E.
    destruct acc as [r|]; [destruct (replaces x r)|]; [injection H as <-; right; split; [left; reflexivity|exact E]|left; exact H|injection H as <-; right; split; [left; reflexivity|exact E]].
  Qed.
  Lemma fold_same l : forall acc, (forall f, In f l -> wf_form U f = Ok t -> exists g, acc = Some g /\ ~ preferred f g) -> fold_left step l acc = acc.
  Proof.
    induction l as [|x l IH]; intros acc H; [reflexivity|]. cbn [fold_left]. assert (E : step acc x = acc).
    { unfold best_step. destruct (has_text U t x) eqn:Ht; [|reflexivity]. apply has_text_iff in Ht. destruct (H x (or_introl eq_refl) Ht) as (g & -> & N).
      destruct (replaces x g) eqn:E; [|reflexivity]. apply replaces_iff in E. contradiction. }
    rewrite E. apply IH. intros f Hf. apply H. right. exact Hf.
  Qed.
  Lemma fold_twice l acc : fold_left step l (fold_left step l acc) = fold_left step l acc.
  Proof. apply fold_same. intros f Hf Ht. apply fold_beats; assumption. Qed.
  Lemma fold_again P Q acc : fold_left step (P ++ Q) (fold_left step P acc) = fold_left step (P ++ Q) acc.
  Proof. rewrite !fold_left_app, fold_twice. reflexivity. Qed.

  (** a candidate than which none is better *)
  Definition minimal (l : list wordform) (o : option wordform) : Prop :=
    match o with
    | None => forall f, In f l -> wf_form U f <> Ok t
    | Some g => In g l /\ wf_form U g = Ok t /\ forall f, In f l -> wf_form U f = Ok t -> ~ preferred f g
    end.
  Lemma best_minimal l : minimal l (best U t l).
  Proof.
    pose proof (best_spec U t l) as H. unfold minimal. destruct (best U t l) as [g|]; [|exact H]. destruct H as (H1 & l1 & l2 & -> & H2 & _).
    split; [apply in_app_iff; right; left; reflexivity|]. split; assumption.
  Qed.
  Lemma minimal_level l f g : minimal l (Some f) -> minimal l (Some g) -> level f g.
  Proof.
    intros (A1 & A2 & A3) (B1 & B2 & B3). destruct (preferred_trichotomy f g) as [H|[H|H]]; [|destruct (A3 g B1 B2 H)|exact H]. destruct (B3 f A1 A2 H).
  Qed.
  Lemma minimal_none l g : minimal l None -> minimal l (Some g) -> False.
  Proof. intros H (H1 & H2 & _). exact (H g H1 H2). Qed.
End Fold.

(** ** adding again, as a fold *)
Section Again.
  Context (U : unicode).
  Lemma regs_entries l : forall d t, dget str_eqb t (fst (regs U d l)) = fold_left (best_step U t) (ok_prefix U l) (dget str_eqb t d).
  Proof.
    induction l as [|f l IH]; intros d t; [reflexivity|]. cbn [regs ok_prefix]. unfold add_form. destruct (wf_form U f) as [s|e] eqn:E; [|reflexivity].
    cbn [bind fold_left]. assert (S : dget str_eqb t (match dget str_eqb s d with None => dset str_eqb s f d | Some r => if replaces f r then dset str_eqb s f d else d end) = best_step U t (dget str_eqb t d) f).
    { unfold best_step. destruct (str_eqb s t) eqn:Es.
      - apply str_eqb_ok in Es. subst s. rewrite (proj2 (has_text_iff U t f) E). destruct (dget str_eqb t d) as [r|] eqn:Eg; [destruct (replaces f r)|]; rewrite ?(dget_dset_same _ str_eqb_ok); auto.
      - assert (N : has_text U t f = false). { destruct (has_text U t f) eqn:Eh; [|reflexivity]. apply has_text_iff in Eh. rewrite E in Eh. injection Eh as ->. rewrite (proj2 (str_eqb_ok t t) eq_refl) in Es. discriminate. }
        rewrite N. assert (D : dget str_eqb t (dset str_eqb s f d) = dget str_eqb t d) by (rewrite (dget_dset _ str_eqb_ok), Es; reflexivity).
        destruct (dget str_eqb s d) as [r|]; [destruct (replaces f r)|]; auto. }
    rewrite <- S. destruct (dget str_eqb s d) as [r|]; [destruct (replaces f r)|]; apply IH.
  Qed.
  Lemma registers_prefix w : is_word w -> registers U w (ok_prefix U (word_forms w)).
  Proof. intros Hw. apply (ok_prefix_registers U w (word_forms w)); [apply all_forms_eq, Hw|reflexivity]. Qed.
  Lemma added_entries ws : Forall is_word ws -> forall l, registered U ws l -> forall d t,
    dget str_eqb t (added_again U d ws) = fold_left (best_step U t) l (dget str_eqb t d).
  Proof.
    intros Hw l (ls & H & ->). revert Hw. induction H as [|w lw ws ls Hr _ IH]; intros Hw d t; [reflexivity|]. inversion Hw as [|? ? Hw1 Hw2]; subst.
    unfold added_again in *. cbn [fold_left concat]. rewrite (IH Hw2), fold_left_app. f_equal. rewrite (add_word_regs U w d Hw1), regs_entries.
    rewrite (registers_fun U w lw _ Hr (registers_prefix w Hw1)). reflexivity.
  Qed.
  Lemma added_after ws ws' : added_again U (after U ws) ws' = after U (ws ++ ws').
  Proof. unfold added_again, after. rewrite fold_left_app. reflexivity. Qed.

  Lemma candidate_in ws l t f : registered U ws l -> (candidate U ws t f <-> In f l /\ wf_form U f = Ok t).
  Proof.
    intros (ls & H & ->). split.
    - intros (Ht & w & lw & Hw & Hr & Hf). split; [|exact Ht]. destruct (Forall2_in_l _ _ _ _ H Hw) as (lw' & Hl & Hr'). rewrite (registers_fun U w lw lw' Hr Hr') in Hf. apply in_concat. exists lw'. auto.
    - intros [Hf Ht]. split; [exact Ht|]. apply in_concat in Hf as (lw & Hl & Hf). destruct (Forall2_in_r _ _ _ _ H Hl) as (w & Hw & Hr). exists w, lw. auto.
  Qed.
  Lemma registered_app ws l ws' l' : registered U ws l -> registered U ws' l' -> registered U (ws ++ ws') (l ++ l').
  Proof. intros (a & A & ->) (b & B & ->). exists (a ++ b). split; [apply Forall2_app; assumption|rewrite concat_app; reflexivity]. Qed.
  Lemma registered_exists ws : Forall is_word ws -> exists l, registered U ws l.
  Proof. intros H. destruct (registered_all U ws H) as [ls Hl]. exists (concat ls), ls. auto. Qed.

  (** as good = minimal everywhere *)
  Lemma as_good_minimal ws l d : Forall is_word ws -> registered U ws l -> (as_good U ws d <-> forall t, minimal U t l (dget str_eqb t d)).
  Proof.
    intros Hw Hl. pose proof (after_rep_of U ws l Hw Hl) as R. split; intros H t; specialize (H t); pose proof (best_minimal U t l) as B; rewrite <- R in B.
    - unfold get_word in H. destruct (dget str_eqb t (after U ws)) as [f|].
      + destruct H as (f' & H1 & H2 & L). destruct (dget str_eqb t d) as [g|]; [|discriminate]. injection H1 as ->. apply (candidate_in ws l t f' Hl) in H2 as [I2 T2].
        split; [exact I2|]. split; [exact T2|]. intros b Ib Tb P. apply (preferred_level_r f f' b L) in P. destruct B as (_ & _ & B). exact (B b Ib Tb P).
      + destruct (dget str_eqb t d) as [g|]; [discriminate|]. exact B.
    - unfold get_word. destruct (dget str_eqb t (after U ws)) as [f|], (dget str_eqb t d) as [g|].
      + exists g. split; [reflexivity|]. split; [apply (candidate_in ws l t g Hl); destruct H as (? & ? & _); auto|]. apply (minimal_level U t l); assumption.
      + destruct (minimal_none U t l f H B).
      + destruct (minimal_none U t l g B H).
      + reflexivity.
  Qed.

  (** *** one load that goes wrong: entries come from the dictionary before or from the words, and do not get worse *)
  Definition better_pending (d0 : dictionary) (pc : aw_pc) : Prop :=
    match pc with
    | AW_insert f t _ => dget str_eqb t d0 = None
    | AW_replace f t _ => forall g, dget str_eqb t d0 = Some g -> preferred f g
    | _ => True
    end.
  Definition better_entries (d0 d : dictionary) : Prop := forall t g, dget str_eqb t d0 = Some g -> exists g', dget str_eqb t d = Some g' /\ no_worse g g'.
  Lemma better_step d0 d pc : better_entries d0 d -> better_pending d0 pc ->
    better_entries d0 (fst (aw_step U d pc)) /\ better_pending d0 (snd (aw_step U d pc)).
  Proof.
    intros E P. assert (Set' : forall s f, (forall g, dget str_eqb s d0 = Some g -> preferred f g) -> better_entries d0 (dset str_eqb s f d)).
    { intros s f Hf t g Hg. rewrite (dget_dset _ str_eqb_ok). destruct (str_eqb s t) eqn:Es; [|apply E, Hg]. apply str_eqb_ok in Es. subst s. exists f. split; [reflexivity|]. right. apply Hf, Hg. }
    destruct pc as [[|f fs]|f s rest|f s rest|f s rest|r]; cbn [aw_step fst snd better_pending] in *; try (split; [exact E|exact I]).
    - split; [exact E|]. destruct (wf_form U f) as [s|e]; [|exact I]. unfold dmem. destruct (dget str_eqb s d) eqn:Eg; [exact I|]. cbn [better_pending].
      destruct (dget str_eqb s d0) as [g|] eqn:E0; [|reflexivity]. destruct (E s g E0) as (g' & H & _). congruence.
    - split; [|exact I]. apply Set'. intros g Hg. congruence.
    - split; [exact E|]. destruct (dget str_eqb s d) as [r|] eqn:Eg; [|exact I]. destruct (replaces f r) eqn:Er; [|exact I]. cbn [better_pending].
      intros g Hg. destruct (E s g Hg) as (g' & H & N). rewrite Eg in H. injection H as <-. apply replaces_iff in Er. destruct N as [->|N]; [exact Er|eapply preferred_trans; eassumption].
    - split; [|exact I]. apply Set'. exact P.
  Qed.
  Lemma adding_better d0 ws schedule : better_entries d0 (fst (adding U d0 ws schedule)).
  Proof.
    assert (H : better_entries d0 (fst (adding U d0 ws schedule)) /\ Forall (better_pending d0) (snd (adding U d0 ws schedule))).
    { unfold adding, aw_run. apply (run_invariant (aw_step U) (fun s => better_entries d0 (fst s) /\ Forall (better_pending d0) (snd s))).
      - intros s i [HE HP]. unfold step_at. destruct (nth_error (snd s) i) as [pc|] eqn:Ei; [|auto]. rewrite Forall_forall in HP.
        destruct (better_step d0 (fst s) pc HE (HP pc (nth_error_In _ _ Ei))) as [H1 H2]. destruct (aw_step U (fst s) pc) as [d' pc']. cbn [fst snd] in *. split; [exact H1|].
        apply Forall_forall. intros q Hq. apply In_nth_error in Hq as [j Hj]. rewrite (set_nth_at _ _ _ _ _ Ei) in Hj. destruct (Nat.eqb j i); [injection Hj as <-; exact H2|]. apply HP, (nth_error_In _ _ Hj).
      - cbn [fst snd]. split; [intros t g Hg; exists g; split; [exact Hg|left; reflexivity]|]. apply Forall_forall. intros pc Hpc. apply in_map_iff in Hpc as (w & <- & _).
        unfold aw_start. destruct (all_forms w); exact I. }
    apply H.
  Qed.
  Lemma all_the_forms_in ws f : In f (all_the_forms ws) <-> exists w, In w ws /\ In f (word_forms w).
  Proof. unfold all_the_forms. rewrite in_concat. split; [intros (l & Hl & Hf); apply in_map_iff in Hl as (w & <- & Hw); eauto|intros (w & Hw & Hf); exists (word_forms w); split; [apply in_map, Hw|exact Hf]]. Qed.
  Definition known_forms (ws : list word) : list wordform := concat (map (fun w => ok_prefix U (word_forms w)) ws).
  Lemma known_forms_registered ws : Forall is_word ws -> registered U ws (known_forms ws).
  Proof.
    intros H. exists (map (fun w => ok_prefix U (word_forms w)) ws). split; [|reflexivity]. induction H as [|w ws Hw _ IH]; [constructor|]. cbn [map]. constructor; [apply registers_prefix, Hw|exact IH].
  Qed.
  Lemma ok_prefix_app P : forall Q, (forall f, In f P -> exists t, wf_form U f = Ok t) -> ok_prefix U (P ++ Q) = P ++ ok_prefix U Q.
  Proof. intros Q. apply prefix_ok. Qed.
  Lemma ok_prefix_short P l Q : P ++ Q = l -> (forall f, In f P -> exists t, wf_form U f = Ok t) -> exists R, ok_prefix U l = P ++ R.
  Proof. intros <- H. exists (ok_prefix U Q). apply ok_prefix_app, H. Qed.
  Lemma ok_prefix_whole P : (forall f, In f P -> exists t, wf_form U f = Ok t) -> ok_prefix U P = P.
  Proof. intros H. rewrite <- (app_nil_r P) at 1. rewrite ok_prefix_app by exact H. apply app_nil_r. Qed.
  Lemma loaded_prefix ws : forall P Q, all_the_forms ws = P ++ Q -> (forall f, In f P -> exists t, wf_form U f = Ok t) -> exists R, known_forms ws = P ++ R.
  Proof.
    induction ws as [|w ws IH]; intros P Q H HP; unfold all_the_forms, known_forms in *; cbn [map concat] in *.
    - destruct P; [exists []; reflexivity|discriminate].
    - fold (all_the_forms ws) in *. fold (known_forms ws) in *.
      assert (G : forall (a b c d : list wordform), a ++ b = c ++ d -> (exists m, c = a ++ m /\ b = m ++ d) \/ (exists m, a = c ++ m)).
      { clear. induction a as [|x a IHa]; intros b c d E; [left; exists c; auto|]. destruct c as [|y c]; [right; exists (x :: a); reflexivity|].
        cbn [app] in E. injection E as -> E. destruct (IHa b c d E) as [(m & -> & ->)|(m & ->)]; [left; exists m; auto|right; exists m; reflexivity]. }
      destruct (G _ _ _ _ H) as [(m & -> & E)|(m & E)].
      + destruct (IH m Q E) as (R & HR); [intros f Hf; apply HP, in_app_iff; auto|]. exists R. rewrite HR, ok_prefix_whole, app_assoc; [reflexivity|]. intros f Hf. apply HP, in_app_iff. auto.
      + rewrite E, ok_prefix_app by exact HP. eexists. rewrite <- app_assoc. reflexivity.
  Qed.
  Lemma regs_ok_all l : forall d D, regs U d l = (D, Ok tt) -> forall f, In f l -> exists t, wf_form U f = Ok t.
  Proof.
    induction l as [|x l IH]; intros d D H f Hf; [destruct Hf|]. cbn [regs] in H. pose proof (add_form_result U d x) as R. destruct (add_form U d x) as [d1|e]; [|discriminate].
    destruct Hf as [<-|Hf]; [exact R|exact (IH d1 D H f Hf)].
  Qed.
  (** an interrupted load has registered the first of the forms *)
  Lemma load_entries ws d n : Forall is_word ws -> exists P R, known_forms ws = P ++ R /\ forall t, dget str_eqb t (interrupted_load U ws d n) = fold_left (best_step U t) P (dget str_eqb t d).
  Proof.
    intros Hw. destruct (loaded_part U ws d n Hw) as (P & Q & E & H). pose proof (regs_ok_all P d _ H) as Hok. destruct (loaded_prefix ws P Q E Hok) as (R & HR).
    exists P, R. split; [exact HR|]. intros t. pose proof (regs_entries P d t) as G. rewrite H, (ok_prefix_whole P Hok) in G. exact G.
  Qed.

  (** where the entries come from, and that they do not get worse *)
  Lemma trouble_sound ws d d' t g : Forall is_word ws -> trouble U ws d d' -> dget str_eqb t d' = Some g -> dget str_eqb t d = Some g \/ (In g (known_forms ws) /\ wf_form U g = Ok t).
  Proof.
    intros Hw [schedule|n] H.
    - assert (G : get_word (fst (adding U d ws schedule)) t = Ok g) by (unfold get_word; rewrite H; reflexivity).
      destruct (sound_aux U d ws schedule Hw t g G) as [S|(Ht & w & lw & Hin & Hr & Hf)].
      + left. unfold get_word in S. destruct (dget str_eqb t d) as [x|]; [injection S as ->; reflexivity|discriminate].
      + right. apply (candidate_in ws _ t g (known_forms_registered ws Hw)). split; [exact Ht|]. exists w, lw. auto.
    - destruct (load_entries ws d n Hw) as (P & R & E & G). rewrite G in H. apply fold_in in H as [H|[H1 H2]]; [left; exact H|]. right. rewrite E. split; [apply in_app_iff; auto|exact H2].
  Qed.
  Lemma trouble_better ws d d' : Forall is_word ws -> trouble U ws d d' -> better_entries d d'.
  Proof.
    intros Hw [schedule|n]; [apply adding_better|]. destruct (load_entries ws d n Hw) as (P & R & E & G). intros t g Hg. rewrite G, Hg. apply fold_grows.
  Qed.
  Lemma troubled_words ws d : troubled U ws d -> Forall is_word ws.
  Proof. induction 1 as [|b d ws d' _ IH Hw _]; [constructor|apply Forall_app; auto]. Qed.
  Lemma known_forms_app a b : known_forms (a ++ b) = known_forms a ++ known_forms b.
  Proof. unfold known_forms. rewrite map_app, concat_app. reflexivity. Qed.
  Lemma troubled_sound ws d : troubled U ws d -> forall t g, dget str_eqb t d = Some g -> In g (known_forms ws) /\ wf_form U g = Ok t.
  Proof.
    induction 1 as [|b d ws d' _ IH Hw Ht]; intros t g H; [discriminate|]. rewrite known_forms_app, in_app_iff. destruct (trouble_sound ws d d' t g Hw Ht H) as [G|[G1 G2]]; [|auto].
    destruct (IH t g G); auto.
  Qed.
  Lemma known_forms_incl ws ws' : incl ws ws' -> incl (known_forms ws) (known_forms ws').
  Proof. intros H f Hf. unfold known_forms in *. apply in_concat in Hf as (l & Hl & Hf). apply in_map_iff in Hl as (w & <- & Hw). apply in_concat. eexists. split; [|exact Hf]. apply in_map_iff. eauto. Qed.

  (** *** the one thread that deals with t *)
  Definition dealt (t : str) (d0 d : dictionary) (lw : list wordform) (pc : aw_pc) : Prop :=
    exists dn rest, lw = dn ++ rest /\ dget str_eqb t d = fold_left (best_step U t) dn (dget str_eqb t d0) /\
      match pc with
      | AW_next fs => rest = ok_prefix U fs
      | AW_insert f s fs => rest = ok_prefix U (f :: fs) /\ wf_form U f = Ok s /\ (s = t -> dget str_eqb t d = None)
      | AW_read f s fs => rest = ok_prefix U (f :: fs) /\ wf_form U f = Ok s
      | AW_replace f s fs => rest = ok_prefix U (f :: fs) /\ wf_form U f = Ok s /\ (s = t -> exists g, dget str_eqb t d = Some g /\ replaces f g = true)
      | AW_done _ => True
      end.
  Lemma no_text_skip t f s acc : wf_form U f = Ok s -> s <> t -> best_step U t acc f = acc.
  Proof. intros E N. unfold best_step. destruct (has_text U t f) eqn:Eh; [|reflexivity]. apply has_text_iff in Eh. congruence. Qed.
  Lemma dealt_step t d0 d lw pc : dealt t d0 d lw pc -> dealt t d0 (fst (aw_step U d pc)) lw (snd (aw_step U d pc)).
  Proof.
    intros (dn & rest & E & F & P). assert (Snoc : forall f fs s, rest = ok_prefix U (f :: fs) -> wf_form U f = Ok s -> lw = (dn ++ [f]) ++ ok_prefix U fs).
    { intros f fs s -> Hf. rewrite (ok_prefix_cons U f s fs Hf) in E. rewrite E, <- app_assoc. reflexivity. }
    destruct pc as [[|f fs]|f s fs|f s fs|f s fs|r]; cbn [aw_step fst snd].
    - exists dn, rest. auto.
    - destruct (wf_form U f) as [s|e] eqn:Ef; [|exists dn, rest; auto]. unfold dmem. destruct (dget str_eqb s d) eqn:Eg; exists dn, rest; (split; [exact E|]); (split; [exact F|]); [split; [exact P|exact Ef]|].
      split; [exact P|]. split; [exact Ef|]. intros <-. exact Eg.
    - destruct P as (P1 & P2 & P3). exists (dn ++ [f]), (ok_prefix U fs). split; [apply (Snoc f fs s P1 P2)|]. split; [|reflexivity]. rewrite fold_left_app. cbn [fold_left]. rewrite <- F, (dget_dset _ str_eqb_ok).
      destruct (str_eqb s t) eqn:Es.
      + apply str_eqb_ok in Es. subst s. rewrite (P3 eq_refl). unfold best_step. rewrite (proj2 (has_text_iff U t f) P2). reflexivity.
      + symmetry. apply (no_text_skip t f s); [exact P2|]. intros ->. rewrite (proj2 (str_eqb_ok t t) eq_refl) in Es. discriminate.
    - destruct P as [P1 P2]. destruct (dget str_eqb s d) as [r|] eqn:Eg; [|exists dn, rest; auto]. destruct (replaces f r) eqn:Er.
      + exists dn, rest. split; [exact E|]. split; [exact F|]. split; [exact P1|]. split; [exact P2|]. intros <-. exists r. auto.
      + exists (dn ++ [f]), (ok_prefix U fs). split; [apply (Snoc f fs s P1 P2)|]. split; [|reflexivity]. rewrite fold_left_app. cbn [fold_left]. rewrite <- F.
        destruct (str_eqb s t) eqn:Es.
        * apply str_eqb_ok in Es. subst s. rewrite Eg. unfold best_step. rewrite (proj2 (has_text_iff U t f) P2), Er. reflexivity.
        * symmetry. apply (no_text_skip t f s); [exact P2|]. intros ->. rewrite (proj2 (str_eqb_ok t t) eq_refl) in Es. discriminate.
    - destruct P as (P1 & P2 & P3). exists (dn ++ [f]), (ok_prefix U fs). split; [apply (Snoc f fs s P1 P2)|]. split; [|reflexivity]. rewrite fold_left_app. cbn [fold_left]. rewrite <- F, (dget_dset _ str_eqb_ok).
      destruct (str_eqb s t) eqn:Es.
      + apply str_eqb_ok in Es. subst s. destruct (P3 eq_refl) as (g & -> & Er). unfold best_step. rewrite (proj2 (has_text_iff U t f) P2), Er. reflexivity.
      + symmetry. apply (no_text_skip t f s); [exact P2|]. intros ->. rewrite (proj2 (str_eqb_ok t t) eq_refl) in Es. discriminate.
    - exists dn, rest. auto.
  Qed.
  Lemma dealt_other t d0 d d' lw pc : dget str_eqb t d' = dget str_eqb t d -> dealt t d0 d lw pc -> dealt t d0 d' lw pc.
  Proof. intros H (dn & rest & E & F & P). exists dn, rest. rewrite H. auto. Qed.
  Lemma lone_run t j d0 ls schedule : (forall i l, nth_error ls i = Some l -> i <> j -> aloof U t (AW_next l)) ->
    (forall l, nth_error ls j = Some l -> exists pc, nth_error (snd (aw_run U (d0, map AW_next ls) schedule)) j = Some pc /\ dealt t d0 (fst (aw_run U (d0, map AW_next ls) schedule)) (ok_prefix U l) pc) /\
    (nth_error ls j = None -> dget str_eqb t (fst (aw_run U (d0, map AW_next ls) schedule)) = dget str_eqb t d0).
  Proof.
    intros H. pose (I (s : dictionary * list aw_pc) := (forall i pc, nth_error (snd s) i = Some pc -> i <> j -> aloof U t pc) /\ (nth_error ls j = None -> nth_error (snd s) j = None /\ dget str_eqb t (fst s) = dget str_eqb t d0) /\
      (forall l, nth_error ls j = Some l -> exists pc, nth_error (snd s) j = Some pc /\ dealt t d0 (fst s) (ok_prefix U l) pc)).
    enough (G : I (aw_run U (d0, map AW_next ls) schedule)). { destruct G as (_ & G1 & G2). split; [exact G2|]. intros N. apply G1, N. }
    unfold aw_run. apply (run_invariant (aw_step U) I).
    - intros s i (A & B & C). unfold step_at. destruct (nth_error (snd s) i) as [pc|] eqn:Ei; [|split; [|split]; assumption].
      destruct (Nat.eq_dec i j) as [->|N].
      + split; [|split].
        * intros k q Hk Hn. destruct (aw_step U (fst s) pc) as [d' pc']. cbn [snd] in Hk. rewrite (set_nth_at _ _ _ _ _ Ei) in Hk. destruct (Nat.eqb_spec k j); [contradiction|]. exact (A k q Hk Hn).
        * intros Hn. destruct (B Hn) as [B1 _]. assert (X : Some pc = None) by (rewrite <- Ei; exact B1). discriminate X.
        * intros l Hl. destruct (C l Hl) as (q & Hq & D). rewrite Ei in Hq. injection Hq as <-. pose proof (dealt_step t d0 (fst s) _ pc D) as D'. destruct (aw_step U (fst s) pc) as [d' pc']. cbn [fst snd] in *.
          exists pc'. rewrite (set_nth_at _ _ _ _ _ Ei), Nat.eqb_refl. auto.
      + destruct (aloof_step U t (fst s) pc (A i pc Ei N)) as [H1 H2]. destruct (aw_step U (fst s) pc) as [d' pc']. cbn [fst snd] in *. split; [|split].
        * intros k q Hk Hn. cbn [snd] in Hk. rewrite (set_nth_at _ _ _ _ _ Ei) in Hk. destruct (Nat.eqb_spec k i); [injection Hk as <-; exact H1|exact (A k q Hk Hn)].
        * intros Hn. destruct (B Hn) as [B1 B2]. cbn [fst snd]. rewrite (set_nth_at _ _ _ _ _ Ei). destruct (Nat.eqb_spec j i); [congruence|]. split; [exact B1|congruence].
        * intros l Hl. destruct (C l Hl) as (q & Hq & D). cbn [fst snd]. exists q. rewrite (set_nth_at _ _ _ _ _ Ei). destruct (Nat.eqb_spec j i); [congruence|]. split; [exact Hq|]. eapply dealt_other; eassumption.
    - split; [|split]; cbn [fst snd].
      + intros i pc Hi Hn. rewrite nth_error_map in Hi. destruct (nth_error ls i) as [l|] eqn:El; [|discriminate]. injection Hi as <-. exact (H i l El Hn).
      + intros Hn. rewrite nth_error_map, Hn. auto.
      + intros l Hl. exists (AW_next l). rewrite nth_error_map, Hl. split; [reflexivity|]. exists [], (ok_prefix U l). auto.
  Qed.
End Again.
