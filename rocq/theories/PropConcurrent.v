(** * PropConcurrent: C69 (concurrent add_word) and C70 (concurrent add_template) *)
From Verif Require Import PyBase PyBaseFacts Relations Restrictions Logic Data Words Transformators Dictionary Lexicon Templates Concurrent
  SpecProps SpecSlots SpecDictionary SpecTemplates SpecLocality SpecConcurrent WordFacts DictFacts PropSlots PropWords PropDictionary PropLocality ConcurrentFacts.
From Coq Require Import Lia Permutation.

(** a prefix of forms with texts is a prefix of what the call registers *)
Lemma prefix_ok U dn : forall rest, (forall f, In f dn -> exists t, wf_form U f = Ok t) -> ok_prefix U (dn ++ rest) = dn ++ ok_prefix U rest.
Proof.
  induction dn as [|f dn IH]; intros rest H; [reflexivity|]. cbn [app ok_prefix]. destruct (H f (or_introl eq_refl)) as [t ->]. rewrite IH; [reflexivity|]. intros g Hg. apply H. right. exact Hg.
Qed.

Lemma registered_all U ws : Forall is_word ws -> exists lws, Forall2 (registers U) ws lws.
Proof.
  induction 1 as [|w ws' Hw _ IH]; [exists []; constructor|]. destruct IH as [lws IH]. assert (E := all_forms_eq w Hw).
  exists (ok_prefix U (map (slot_form w) (INVERTED_WORDS_CACHES (w_type w))) :: lws). constructor; [apply (ok_prefix_registers U w _ _ E); reflexivity|exact IH].
Qed.

Section C69.
  Context (U : unicode) (d0 : dictionary) (ws : list word) (schedule : list nat) (Hws : Forall is_word ws).
  Let st := adding U d0 ws schedule.

  Lemma adding_inv : exists ls dns, Forall2 (fun w l => all_forms w = Ok l) ws ls /\ aw_inv U d0 ls dns st.
  Proof.
    destruct (starts ws Hws) as (ls & H1 & H2). destruct (aw_inv_run U d0 ls schedule) as [dns H]. exists ls, dns. split; [exact H1|].
    unfold st, adding, aw_run. rewrite H2. exact H.
  Qed.

  Lemma sound_aux t f : get_word (fst st) t = Ok f -> get_word d0 t = Ok f \/ wf_form U f = Ok t /\ exists w lw, In w ws /\ registers U w lw /\ In f lw.
  Proof.
    unfold get_word. destruct (dget str_eqb t (fst st)) as [g|] eqn:E; [|discriminate]. intros [= <-].
    destruct adding_inv as (ls & dns & HF & I). destruct (ai_sound _ _ _ _ _ I t g E) as [H|(Hg & i & dn & Hi & Hin)].
    - left. rewrite H. reflexivity.
    - right. split; [exact Hg|]. assert (Hl : i < length ls) by (rewrite <- (ai_len' _ _ _ _ _ I); apply nth_error_Some; congruence).
      destruct (nth_error ls i) as [l|] eqn:El; [|apply nth_error_None in El; lia]. destruct (Forall2_nth' _ _ _ _ _ HF El) as (w & Hw & Haf).
      destruct (nth_error (snd st) i) as [pc|] eqn:Ep; [|apply nth_error_None in Ep; rewrite (ai_len _ _ _ _ _ I) in Ep; lia].
      destruct (ai_local _ _ _ _ _ I i l dn pc El Hi Ep) as [A B]. exists w, (ok_prefix U l). split; [exact (nth_error_In _ _ Hw)|]. split; [apply (ok_prefix_registers U w l _ Haf); reflexivity|].
      assert (E2 : exists rest, l = dn ++ rest) by (destruct pc; [eexists; exact B|destruct B as [B _]; eexists; exact B|destruct B as [B _]; eexists; exact B|destruct B as [B _]; eexists; exact B|destruct B as (rest & B & _); exists rest; exact B]).
      destruct E2 as [rest ->]. rewrite prefix_ok by (intros h Hh; destruct (A h Hh) as (s & ? & _); exists s; assumption). apply in_app_iff. left. exact Hin.
  Qed.

  Lemma outcome_aux i w r : nth_error ws i = Some w -> outcome (snd st) i r ->
    (forall ws', Forall is_word ws' -> r = snd (add_word U (after U ws') w)) /\ forall t, writes U w t -> has_word (fst st) t = true.
  Proof.
    intros Hw Ho. destruct adding_inv as (ls & dns & HF & I). destruct (Forall2_nth _ _ _ _ _ HF Hw) as (l & El & Haf).
    assert (Hi : i < length dns) by (rewrite (ai_len' _ _ _ _ _ I); apply nth_error_Some; congruence).
    destruct (nth_error dns i) as [dn|] eqn:Ed; [|apply nth_error_None in Ed; lia]. destruct (ai_local _ _ _ _ _ I i l dn _ El Ed Ho) as [A (rest & E & B)].
    assert (Hdn : ok_prefix U l = dn). { rewrite E, prefix_ok by (intros h Hh; destruct (A h Hh) as (s & ? & _); exists s; assumption). destruct B as [[-> _]|(f & r' & e & -> & Hf & _)]; cbn [ok_prefix]; [apply app_nil_r|]. rewrite Hf. apply app_nil_r. }
    assert (Hword : is_word w) by (rewrite Forall_forall in Hws; apply Hws, (nth_error_In _ _ Hw)). split.
    - intros ws' Hws'. destruct (after_rep U ws' Hws') as (l0 & _ & Hrep & _). destruct (add_word_spec U w _ _ Hword Hrep) as (l' & rest' & Haf' & Hreg & _ & B').
      apply (ok_prefix_registers U w l l' Haf) in Hreg. rewrite Hdn in Hreg. subst l'. rewrite Haf in Haf'. injection Haf' as Haf'. rewrite E in Haf'. apply app_inv_head in Haf'. subst rest'.
      destruct B as [[-> ->]|(f & r' & e & -> & Hf & ->)], B' as [[E' ->]|(g & r2 & e' & E' & Hg & ->)]; try discriminate; [reflexivity|]. congruence.
    - intros t (lw & f & Hr & Hf & Ht). apply (ok_prefix_registers U w l lw Haf) in Hr. subst lw. rewrite Hdn in Hf. destruct (A f Hf) as (t' & Ht' & K). rewrite Ht in Ht'. injection Ht' as <-. apply known_has, K.
  Qed.

  (** at most one thread deals with t *)
  Lemma one_writer_aux t : (forall i j w w', nth_error ws i = Some w -> nth_error ws j = Some w' -> writes U w t -> writes U w' t -> i = j) ->
    (forall i pc, nth_error (snd st) i = Some pc -> exists r, pc = AW_done r) ->
    forall lws, Forall2 (registers U) ws lws -> dget str_eqb t (fst st) = fold_left (best_step U t) (concat lws) (dget str_eqb t d0).
  Proof.
    intros H1 Hfin lws Hlws.
    destruct (starts ws Hws) as (ls & HF & Hstart).
    assert (Est : st = run_threads (aw_step U) (d0, map AW_next ls) schedule) by (unfold st, adding, aw_run; rewrite Hstart; reflexivity).
    assert (HP : forall i l, nth_error ls i = Some l -> nth_error lws i = Some (ok_prefix U l)).
    { intros i l El. destruct (Forall2_nth' _ _ _ _ _ HF El) as (w & Ew & Haf). destruct (Forall2_nth _ _ _ _ _ Hlws Ew) as (lw & Elw & Hr). apply (ok_prefix_registers U w l lw Haf) in Hr. congruence. }
    assert (HWr : forall i l f, nth_error ls i = Some l -> In f (ok_prefix U l) -> wf_form U f = Ok t -> exists w, nth_error ws i = Some w /\ writes U w t).
    { intros i l f El Hf Ht. destruct (Forall2_nth' _ _ _ _ _ HF El) as (w & Ew & Haf). exists w. split; [exact Ew|]. exists (ok_prefix U l), f. split; [apply (ok_prefix_registers U w l _ Haf); reflexivity|auto]. }
    assert (HE : (exists j l f, nth_error ls j = Some l /\ In f (ok_prefix U l) /\ wf_form U f = Ok t) \/ (forall j l f, nth_error ls j = Some l -> In f (ok_prefix U l) -> wf_form U f <> Ok t)).
    { clear - ls. induction ls as [|l ls' IH]; [right; intros [|j]; discriminate|].
      assert (D : (exists f, In f (ok_prefix U l) /\ wf_form U f = Ok t) \/ forall f, In f (ok_prefix U l) -> wf_form U f <> Ok t).
      { clear. induction (ok_prefix U l) as [|f m IHm]; [right; intros f []|]. destruct (has_text U t f) eqn:E.
        - left. exists f. split; [left; reflexivity|apply has_text_iff, E].
        - destruct IHm as [(g & ? & ?)|IHm]; [left; exists g; split; [right|]; assumption|]. right. intros g [<-|Hg]; [intros Hx; apply has_text_iff in Hx; congruence|apply IHm, Hg]. }
      destruct D as [(f & ? & ?)|D]; [left; exists 0, l, f; auto|]. destruct IH as [(j & l' & f & ? & ? & ?)|IH]; [left; exists (S j), l', f; auto|].
      right. intros [|j] l' f Hj; [injection Hj as <-; apply D|apply (IH j l' f Hj)]. }
    destruct HE as [(j & l & f & Ej & Hf & Ht)|HE].
    - destruct (HWr j l f Ej Hf Ht) as (w & Ew & Hw).
      destruct (one_thread_run U t j (d0, map AW_next ls) schedule) as [_ G].
      { intros i pc Hi. cbn [fst snd] in *. rewrite nth_error_map in Hi. destruct (nth_error ls i) as [li|] eqn:Eli; [|discriminate]. injection Hi as <-. split; [exact I|].
        intros N. split; [|exact I]. intros g Hg Hgt. destruct (HWr i li g Eli Hg Hgt) as (w' & Ew' & Hw'). apply N. exact (H1 _ _ _ _ Ew' Ew Hw' Hw). }
      cbn [fst snd] in G. rewrite nth_error_map, Ej in G. destruct (G _ eq_refl) as (pc' & Epc' & G'). rewrite <- Est in Epc', G'. destruct (Hfin j pc' Epc') as [r ->]. cbn [entry_goal] in G'. rewrite G'.
      (* only the part of thread j matters in concat lws *)
      apply HP in Ej as Ej'. apply nth_error_split in Ej' as (la & lb & Elws & Hlen). rewrite Elws, concat_app. cbn [concat]. rewrite !fold_left_app.
      rewrite (fold_best_skip U t (concat la)).
      + rewrite (fold_best_skip U t (concat lb)); [reflexivity|]. intros g Hg Hgt. apply in_concat in Hg as (lg & Hlg & Hg). apply In_nth_error in Hlg as [n Hn].
        assert (En : nth_error lws (length la + S n) = Some lg) by (rewrite Elws, nth_error_app2 by lia; replace (length la + S n - length la) with (S n) by lia; exact Hn).
        destruct (Forall2_nth' _ _ _ _ _ Hlws En) as (w' & Ew' & Hr). assert (length la + S n = j); [|lia]. apply (H1 _ _ w' w); [exact Ew'|exact Ew|exists lg, g; auto|exact Hw].
      + intros g Hg Hgt. apply in_concat in Hg as (lg & Hlg & Hg). apply In_nth_error in Hlg as [n Hn].
        assert (n < length la) by (apply nth_error_Some; congruence).
        assert (En : nth_error lws n = Some lg) by (rewrite Elws, nth_error_app1 by lia; exact Hn).
        destruct (Forall2_nth' _ _ _ _ _ Hlws En) as (w' & Ew' & Hr). assert (n = j); [|lia]. apply (H1 _ _ w' w); [exact Ew'|exact Ew|exists lg, g; auto|exact Hw].
    - destruct (aloof_run U t (d0, map AW_next ls) schedule) as [_ G].
      { cbn [snd]. apply Forall_forall. intros pc Hpc. apply in_map_iff in Hpc as (l & <- & Hl). apply In_nth_error in Hl as [i Hi]. split; [|exact I]. intros g. apply (HE i l g Hi). }
      rewrite <- Est in G. cbn [fst] in G. rewrite G. symmetry. apply fold_best_skip. intros g Hg. apply in_concat in Hg as (lg & Hlg & Hg). apply In_nth_error in Hlg as [n Hn].
      destruct (Forall2_nth' _ _ _ _ _ Hlws Hn) as (w & Ew & Hr). destruct (Forall2_nth _ _ _ _ _ HF Ew) as (l & El & Haf). apply (ok_prefix_registers U w l lg Haf) in Hr. subst lg. apply (HE n l g El Hg).
  Qed.

  Lemma no_writer_aux t : (forall w, In w ws -> ~ writes U w t) -> get_word (fst st) t = get_word d0 t.
  Proof.
    intros H. unfold get_word. enough (E : dget str_eqb t (fst st) = dget str_eqb t d0) by (rewrite E; reflexivity).
    destruct (starts ws Hws) as (ls & HF & Hstart). destruct (aloof_run U t (d0, map AW_next ls) schedule) as [_ G].
    { cbn [snd]. apply Forall_forall. intros pc Hpc. apply in_map_iff in Hpc as (l & <- & Hl). apply In_nth_error in Hl as [i Hi]. split; [|exact I]. intros g Hg Hgt.
      destruct (Forall2_nth' _ _ _ _ _ HF Hi) as (w & Ew & Haf). apply (H w (nth_error_In _ _ Ew)). exists (ok_prefix U l), g. split; [apply (ok_prefix_registers U w l _ Haf); reflexivity|auto]. }
    unfold st, adding, aw_run. rewrite Hstart. exact G.
  Qed.
End C69.

(** ** C69 *)

(** at every moment of every interleaving a text is answered with a form that has this text and belongs to the dictionary
    as it was or to a word being added *)
Theorem C69_answers_are_genuine : forall U ws0 ws schedule t f, Forall is_word ws0 -> Forall is_word ws ->
  get_word (fst (adding U (after U ws0) ws schedule)) t = Ok f ->
  wf_form U f = Ok t /\ (get_word (after U ws0) t = Ok f \/ exists w lw, In w ws /\ registers U w lw /\ In f lw).
Proof.
  intros U ws0 ws schedule t f H0 H E. destruct (sound_aux U (after U ws0) ws schedule H t f E) as [Hg|[Ht Hx]]; [|auto]. split; [|left; exact Hg].
  destruct (after_rep U ws0 H0) as (l & Hl & Hr & _). unfold get_word in Hg. rewrite Hr in Hg. assert (B := best_spec U t l). destruct (best U t l) as [g|]; [|discriminate].
  injection Hg as ->. apply B.
Qed.

(** a known text stays known *)
Theorem C69_never_forgets : forall U d ws s1 s2 t,
  has_word (fst (adding U d ws s1)) t = true -> has_word (fst (adding U d ws (s1 ++ s2))) t = true.
Proof. intros U d ws s1 s2 t H. unfold adding, aw_run in *. rewrite run_app. apply known_has. apply aw_run_mono. apply known_has. exact H. Qed.

(** a call that returned or raised did so as it would alone, and its texts are known from then on, whatever the others do *)
Theorem C69_finished_call : forall U ws0 ws schedule i w r, Forall is_word ws0 -> Forall is_word ws ->
  nth_error ws i = Some w -> outcome (snd (adding U (after U ws0) ws schedule)) i r ->
  (forall ws', Forall is_word ws' -> r = snd (add_word U (after U ws') w)) /\
  forall t, writes U w t -> has_word (fst (adding U (after U ws0) ws schedule)) t = true.
Proof. intros U ws0 ws schedule i w r H0 H Hi Ho. eapply outcome_aux; eassumption. Qed.

(** when all calls have finished exactly the texts of the sequential program are known *)
Theorem C69_all_texts : forall U ws0 ws schedule t, Forall is_word ws0 -> Forall is_word ws ->
  all_finished (snd (adding U (after U ws0) ws schedule)) ->
  has_word (fst (adding U (after U ws0) ws schedule)) t = has_word (after U (ws0 ++ ws)) t.
Proof.
  intros U ws0 ws schedule t H0 H Hfin. destruct (registered_all U ws H) as [lws Hlws]. destruct (after_rep U ws0 H0) as (l0 & (ls0 & Hl0 & ->) & Hr0 & _).
  assert (Hreg : registered U (ws0 ++ ws) (concat ls0 ++ concat lws)) by (exists (ls0 ++ lws); split; [apply Forall2_app; assumption|symmetry; apply concat_app]).
  apply eq_true_iff_eq. rewrite (C20_has_word U (ws0 ++ ws) _ t (proj2 (Forall_app _ _ _) (conj H0 H)) Hreg). split.
  - intros Hk. assert (exists f, get_word (fst (adding U (after U ws0) ws schedule)) t = Ok f) as [f Hf].
    { unfold get_word. unfold has_word, dmem in Hk. destruct (dget str_eqb t (fst (adding U (after U ws0) ws schedule))); [eexists; reflexivity|discriminate]. }
    destruct (C69_answers_are_genuine U ws0 ws schedule t f H0 H Hf) as [Ht [Hg|(w & lw & Hw & Hr & Hin)]]; exists f; (split; [|exact Ht]); apply in_app_iff.
    + left. apply (C20_get_word U ws0 (concat ls0) t f H0); [exists ls0; auto|exact Hg].
    + right. apply in_concat. apply In_nth_error in Hw as [n Hn]. destruct (Forall2_nth _ _ _ _ _ Hlws Hn) as (lw' & En & Hr'). exists lw'. split; [exact (nth_error_In _ _ En)|]. rewrite (registers_fun U w lw' lw Hr' Hr). exact Hin.
  - intros (f & Hf & Ht). apply in_app_iff in Hf as [Hf|Hf].
    + assert (K : has_word (after U ws0) t = true) by (apply (C20_has_word U ws0 (concat ls0) t H0); [exists ls0; auto|exists f; auto]).
      apply (C69_never_forgets U (after U ws0) ws [] schedule t). exact K.
    + apply in_concat in Hf as (lw & Hlw & Hf). apply In_nth_error in Hlw as [n Hn]. destruct (Forall2_nth' _ _ _ _ _ Hlws Hn) as (w & Ew & Hr).
      destruct (nth_error (snd (adding U (after U ws0) ws schedule)) n) as [pc|] eqn:Ep.
      * destruct (Hfin n pc Ep) as [r ->]. apply (outcome_aux U (after U ws0) ws schedule H n w r Ew Ep). exists lw, f. auto.
      * exfalso. destruct (adding_inv U (after U ws0) ws schedule H) as (ls & dns & HF & I). apply nth_error_None in Ep. rewrite (ai_len _ _ _ _ _ I) in Ep. destruct (Forall2_nth _ _ _ _ _ HF Ew) as (l & El & _). assert (n < length ls) by (apply nth_error_Some; congruence). lia.
Qed.

(** a text that at most one of the calls writes is answered as in the sequential program: words without common texts can be
    added concurrently *)
Theorem C69_one_writer : forall U ws0 ws schedule t, Forall is_word ws0 -> Forall is_word ws ->
  (forall i j w w', nth_error ws i = Some w -> nth_error ws j = Some w' -> writes U w t -> writes U w' t -> i = j) ->
  all_finished (snd (adding U (after U ws0) ws schedule)) ->
  get_word (fst (adding U (after U ws0) ws schedule)) t = get_word (after U (ws0 ++ ws)) t.
Proof.
  intros U ws0 ws schedule t H0 H H1 Hfin. destruct (after_rep U ws0 H0) as (l0 & (ls0 & Hl0 & ->) & Hr0 & _). destruct (registered_all U ws H) as [lws Hlws].
  assert (Hreg : registered U (ws0 ++ ws) (concat ls0 ++ concat lws)) by (exists (ls0 ++ lws); split; [apply Forall2_app; assumption|symmetry; apply concat_app]).
  unfold get_word. rewrite (one_writer_aux U (after U ws0) ws schedule H t H1 Hfin lws Hlws).
  rewrite (after_rep_of U (ws0 ++ ws) _ (proj2 (Forall_app _ _ _) (conj H0 H)) Hreg t), best_app, <- (Hr0 t). reflexivity.
Qed.

(** rounds of concurrent calls, one after the other: the dictionary knows exactly the texts of the sequential program, and
    answers as it does where no two calls of one round compete for the text *)
Theorem C69_rounds : forall U rounds d, after_rounds U rounds d ->
  (forall t, has_word d t = has_word (after U (concat rounds)) t) /\
  (forall t f, get_word d t = Ok f -> wf_form U f = Ok t /\ exists w lw, In w (concat rounds) /\ registers U w lw /\ In f lw) /\
  (forall t, Forall (lone_writer U t) rounds -> get_word d t = get_word (after U (concat rounds)) t).
Proof.
  intros U rounds d H. enough (K : Forall is_word (concat rounds) /\ (forall t, has_word d t = has_word (after U (concat rounds)) t) /\
    (forall t f, get_word d t = Ok f -> wf_form U f = Ok t /\ exists w lw, In w (concat rounds) /\ registers U w lw /\ In f lw) /\
    (forall t, Forall (lone_writer U t) rounds -> dget str_eqb t d = dget str_eqb t (after U (concat rounds)))).
  { destruct K as (_ & K1 & K2 & K3). split; [exact K1|]. split; [exact K2|]. intros t Ht. unfold get_word. rewrite (K3 t Ht). reflexivity. }
  induction H as [|rounds d ws schedule _ (W & I1 & I2 & I3) Hws Hfin].
  - split; [constructor|]. split; [reflexivity|]. split; [intros t f E; discriminate E|reflexivity].
  - rewrite concat_app. cbn [concat]. rewrite app_nil_r. set (ws0 := concat rounds) in *. split; [apply Forall_app; auto|].
    destruct (registered_all U ws Hws) as [lws Hlws]. destruct (after_rep U ws0 W) as (l0 & (ls0 & Hl0 & ->) & Hr0 & _).
    assert (Hreg : registered U (ws0 ++ ws) (concat ls0 ++ concat lws)) by (exists (ls0 ++ lws); split; [apply Forall2_app; assumption|symmetry; apply concat_app]).
    assert (G : forall t f, get_word (fst (adding U d ws schedule)) t = Ok f -> wf_form U f = Ok t /\ exists w lw, In w (ws0 ++ ws) /\ registers U w lw /\ In f lw).
    { intros t f E. destruct (sound_aux U d ws schedule Hws t f E) as [Hg|[Ht (w & lw & Hw & Hr & Hin)]].
      - destruct (I2 t f Hg) as [Ht (w & lw & Hw & Hr & Hin)]. split; [exact Ht|]. exists w, lw. split; [apply in_app_iff; left; exact Hw|auto].
      - split; [exact Ht|]. exists w, lw. split; [apply in_app_iff; right; exact Hw|auto]. }
    split; [|split; [exact G|]].
    + intros t. apply eq_true_iff_eq. rewrite (C20_has_word U (ws0 ++ ws) _ t (proj2 (Forall_app _ _ _) (conj W Hws)) Hreg). split.
      * intros Hk. assert (exists f, get_word (fst (adding U d ws schedule)) t = Ok f) as [f Hf].
        { unfold get_word. unfold has_word, dmem in Hk. destruct (dget str_eqb t (fst (adding U d ws schedule))); [eexists; reflexivity|discriminate]. }
        destruct (G t f Hf) as [Ht (w & lw & Hw & Hr & Hin)]. exists f. split; [|exact Ht]. rewrite <- concat_app. apply in_concat.
        apply In_nth_error in Hw as [n Hn]. destruct (Forall2_nth _ _ _ _ _ (Forall2_app Hl0 Hlws) Hn) as (lw' & En & Hr').
        exists lw'. split; [exact (nth_error_In _ _ En)|]. rewrite (registers_fun U w lw' lw Hr' Hr). exact Hin.
      * intros (f & Hf & Ht). apply in_app_iff in Hf as [Hf|Hf].
        -- apply (C69_never_forgets U d ws [] schedule t). change (has_word d t = true). rewrite I1.
           apply (C20_has_word U ws0 (concat ls0) t W); [exists ls0; auto|exists f; auto].
        -- apply in_concat in Hf as (lw & Hlw & Hf). apply In_nth_error in Hlw as [n Hn]. destruct (Forall2_nth' _ _ _ _ _ Hlws Hn) as (w & Ew & Hr).
           destruct (nth_error (snd (adding U d ws schedule)) n) as [pc|] eqn:Ep.
           ++ destruct (Hfin n pc Ep) as [r ->]. apply (outcome_aux U d ws schedule Hws n w r Ew Ep). exists lw, f. auto.
           ++ exfalso. destruct (adding_inv U d ws schedule Hws) as (ls & dns & HF & I). apply nth_error_None in Ep. rewrite (ai_len _ _ _ _ _ I) in Ep.
              destruct (Forall2_nth _ _ _ _ _ HF Ew) as (l & El & _). assert (n < length ls) by (apply nth_error_Some; congruence). lia.
    + intros t Ht. apply Forall_app in Ht as [Ht1 Ht2]. inversion Ht2 as [|? ? Ht3 _]; subst.
      rewrite (one_writer_aux U d ws schedule Hws t Ht3 Hfin lws Hlws), (I3 t Ht1).
      rewrite (after_rep_of U (ws0 ++ ws) _ (proj2 (Forall_app _ _ _) (conj W Hws)) Hreg t), best_app, <- (Hr0 t). reflexivity.
Qed.

(** readers: a text that no call writes has its answer unchanged at every moment, so that concurrent substitutions of
    variables with other identifiers are not disturbed *)
Theorem C69_readers : forall U ws0 ws schedule s ext, Forall is_word ws0 -> Forall is_word ws -> NoDup (dkeys ext) ->
  (forall w, In w ws -> ~ writes U w (s_id s)) ->
  get_word (fst (adding U (after U ws0) ws schedule)) (s_id s) = get_word (after U ws0) (s_id s) /\
  get_text U s ext (fst (adding U (after U ws0) ws schedule)) = get_text U s ext (after U ws0).
Proof.
  intros U ws0 ws schedule s ext H0 H Hn Hw. assert (E := no_writer_aux U (after U ws0) ws schedule H (s_id s) Hw). split; [exact E|].
  apply C63_variable; try assumption; [intros f; reflexivity|intros name _ f; reflexivity|intros _; exact E].
Qed.

(** each thread finishes: three steps for each form and one more *)
Theorem C69_progress : forall U d ws schedule i w, Forall is_word ws -> nth_error ws i = Some w ->
  3 * length (w_forms w) + 1 <= moves i schedule -> exists r, outcome (snd (adding U d ws schedule)) i r.
Proof.
  intros U d ws schedule i w Hws Hi Hm. assert (Hw : is_word w) by (rewrite Forall_forall in Hws; apply Hws, (nth_error_In _ _ Hi)).
  set (m := fun pc => match pc with AW_next fs => 3 * length fs + 1 | AW_insert _ _ r => 3 * length r + 2 | AW_read _ _ r => 3 * length r + 3 | AW_replace _ _ r => 3 * length r + 2 | AW_done _ => 0 end).
  destruct (run_measure (aw_step U) m) with (sched := schedule) (st := (d, map aw_start ws)) (i := i) (pc := aw_start w) as (pc & E1 & E2).
  - intros s pc. destruct pc as [[|f fs]|f t rest|f t rest|f t rest|r]; cbn [aw_step snd m length]; try lia.
    + destruct (wf_form U f) as [t|e]; [|cbn [m]; lia]. destruct (dmem str_eqb t s); cbn [m]; lia.
    + destruct (dget str_eqb t s) as [r|]; [|cbn [m]; lia]. destruct (replaces f r); cbn [m]; lia.
  - cbn [snd]. rewrite nth_error_map, Hi. reflexivity.
  - assert (E3 : m (aw_start w) = 3 * length (w_forms w) + 1). { unfold aw_start. rewrite (all_forms_eq w Hw). cbn [m]. rewrite map_length, <- (LookupFacts.word_forms_length w Hw). reflexivity. }
    unfold moves in Hm. unfold count_runs in E2. assert (E4 : m pc = 0) by lia. destruct pc; cbn [m] in E4; try lia. exists r. exact E1.
Qed.

(** FINDING: a race.  Two calls that write the same text can leave the worse candidate: the later write of a thread that
    found the text unknown is not compared with what the other thread registered meanwhile *)
Definition about : word := {| w_type := WT_PREPOSITION; w_forms := [u "7"; u "об"; u "обо"]; w_props := [] |}.
Definition seven : word := {| w_type := WT_INTEGER; w_forms := [u "7"]; w_props := [] |}.
Lemma finished_bool threads : forallb (fun pc => match pc with AW_done _ => true | _ => false end) threads = true -> all_finished threads.
Proof. intros H i pc Hi. rewrite forallb_forall in H. specialize (H pc (nth_error_In _ _ Hi)). destruct pc; try discriminate. eexists. reflexivity. Qed.
Theorem C69_race_refuted : exists U ws schedule t f g, Forall is_word ws /\ all_finished (snd (adding U [] ws schedule)) /\
  get_word (fst (adding U [] ws schedule)) t = Ok f /\ get_word (after U ws) t = Ok g /\ preferred g f /\
  (* whatever the order of sequential calls *) forall ws', Permutation ws ws' -> exists g', get_word (after U ws') t = Ok g' /\ level g g'.
Proof.
  exists ru_unicode, [about; seven], [0; 1; 1; 1; 0; 0; 0; 0; 0; 0], (u "7").
  assert (Hw : Forall is_word [about; seven]) by (repeat constructor; try apply (new_properties []); intros d []).
  do 2 eexists. split; [exact Hw|]. split; [apply finished_bool; vm_compute; reflexivity|].
  split; [vm_compute; reflexivity|]. split; [vm_compute; reflexivity|]. split; [left; vm_compute; reflexivity|].
  intros ws' HP. apply (C22_order_matters_only_for_ties ru_unicode _ ws' Hw HP). vm_compute. reflexivity.
Qed.

(** two words are added to a dictionary that knows a third one; "об" is a text of one of them only *)
Example C69_case : let ws := [about; seven] in Forall is_word [coin] /\ Forall is_word ws /\
  (forall i j w w', nth_error ws i = Some w -> nth_error ws j = Some w' -> writes ru_unicode w (u "об") -> writes ru_unicode w' (u "об") -> i = j) /\
  all_finished (snd (adding ru_unicode (after ru_unicode [coin]) ws [0; 1; 1; 1; 0; 0; 0; 0; 0; 0])) /\
  (forall w, In w ws -> ~ writes ru_unicode w (u "монета")).
Proof.
  assert (H7 : is_word seven) by (split; [apply (new_properties []); intros d []|reflexivity]).
  assert (HA : is_word about) by (split; [apply (new_properties []); intros d []|reflexivity]).
  assert (W : forall w t l, all_forms w = Ok l -> forallb (fun f => negb (has_text ru_unicode t f)) l = true -> ~ writes ru_unicode w t).
  { intros w t l Hl Hb (lw & f & (rest & Hr & _) & Hf & Ht). rewrite Hl in Hr. injection Hr as ->. rewrite forallb_forall in Hb. specialize (Hb f (proj2 (in_app_iff _ _ _) (or_introl Hf))). rewrite (proj2 (has_text_iff _ _ _) Ht) in Hb. discriminate. }
  assert (W7 : ~ writes ru_unicode seven (u "об")) by (eapply W; [reflexivity|vm_compute; reflexivity]).
  split; [constructor; [exact (proj1 C10_case)|constructor]|]. split; [constructor; [exact HA|constructor; [exact H7|constructor]]|]. split; [|split].
  - intros [|[|i]] [|[|j]] w w' Hi Hj Hw Hw'; cbn in Hi, Hj; try (destruct i; discriminate); try (destruct j; discriminate); try reflexivity; exfalso;
      first [injection Hi as <-; contradiction|injection Hj as <-; contradiction].
  - apply finished_bool. vm_compute. reflexivity.
  - intros w [<-|[<-|[]]]; (eapply W; [reflexivity|vm_compute; reflexivity]).
Qed.

(** two rounds: first "монета" alone, then the two words together *)
Example C69_rounds_case : exists d, after_rounds ru_unicode [[coin]; [about; seven]] d /\ Forall (lone_writer ru_unicode (u "об")) [[coin]; [about; seven]] /\
  has_word d (u "об") = true /\ has_word d (u "монетами") = true.
Proof.
  destruct C69_case as (H1 & H2 & H3 & _). set (d1 := fst (adding ru_unicode [] [coin] (repeat 0 40))).
  exists (fst (adding ru_unicode d1 [about; seven] [0; 1; 1; 1; 0; 0; 0; 0; 0; 0])). split; [|split].
  - apply (rounds_more ru_unicode [[coin]] d1 [about; seven]); [|exact H2|apply finished_bool; vm_compute; reflexivity].
    apply (rounds_more ru_unicode [] [] [coin] (repeat 0 40)); [constructor|exact H1|apply finished_bool; vm_compute; reflexivity].
  - constructor; [|constructor; [exact H3|constructor]]. intros [|i] [|j] w w' Hi Hj _ _; cbn in Hi, Hj; try reflexivity; [destruct j|destruct i|destruct i]; discriminate.
  - vm_compute. auto.
Qed.
