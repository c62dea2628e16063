(** * InterruptFacts: lemmas about interrupted calls *)
From Coq Require Import Lia.
From Verif Require Import PyBase PyBaseFacts Relations Logic Data Words Constructors Dictionary Lexicon Templates Lazy Concurrent TemplateThreads Interrupt
  SpecProps PropsFacts SpecSlots SlotFacts NearestFacts LookupFacts SpecDictionary WordFacts DictFacts LexThreadFacts ConcurrentFacts.

Lemma moved_S {S P} (step : S -> P -> S * P) n s pc : moved step (Datatypes.S n) s pc = let st := moved step n s pc in step (fst st) (snd st).
Proof. reflexivity. Qed.
(** an invariant of single steps holds at every crash point *)
Lemma moved_invariant {S P} (step : S -> P -> S * P) (I : S -> P -> Prop) :
  (forall s pc, I s pc -> I (fst (step s pc)) (snd (step s pc))) -> forall n s pc, I s pc -> I (fst (moved step n s pc)) (snd (moved step n s pc)).
Proof. intros H n s pc Hi. induction n as [|n IH]; [exact Hi|]. rewrite moved_S. cbn zeta. apply H, IH. Qed.
(** a call whose measure decreases gets to 0 *)
Lemma moved_measure {S P} (step : S -> P -> S * P) (I : S -> P -> Prop) (m : P -> nat) :
  (forall s pc, I s pc -> I (fst (step s pc)) (snd (step s pc)) /\ m (snd (step s pc)) <= pred (m pc)) ->
  forall n s pc, I s pc -> m (snd (moved step n s pc)) <= m pc - n.
Proof.
  intros H n s pc Hi. assert (Hn : I (fst (moved step n s pc)) (snd (moved step n s pc))) by (apply moved_invariant; [intros; apply H; assumption|exact Hi]).
  revert Hn. induction n as [|n IH]; intros Hn; [cbn; lia|].
  assert (Hn' : I (fst (moved step n s pc)) (snd (moved step n s pc))) by (apply moved_invariant; [intros; apply H; assumption|exact Hi]).
  rewrite moved_S. cbn zeta. destruct (H _ _ Hn') as [_ H2]. specialize (IH Hn'). lia.
Qed.

(** ** registering a list of word forms *)
Section Dictionary.
  Context (U : unicode).
  Fixpoint regs (d : dictionary) (l : list wordform) : dictionary * result unit :=
    match l with [] => (d, Ok tt) | f :: l => match add_form U d f with Ok d' => regs d' l | Err e => (d, Err e) end end.
  Lemma regs_app l1 : forall d l2, regs d (l1 ++ l2) = match regs d l1 with (d', Ok _) => regs d' l2 | (d', Err e) => (d', Err e) end.
  Proof. induction l1 as [|f l1 IH]; intros d l2; [reflexivity|]. cbn [app regs]. destruct (add_form U d f); [apply IH|reflexivity]. Qed.
  Definition word_forms (w : word) : list wordform := map (slot_form w) (INVERTED_WORDS_CACHES (w_type w)).
  Lemma add_word_regs w d : is_word w -> add_word U d w = regs d (word_forms w).
  Proof.
    intros Hw. unfold add_word, word_forms. rewrite (word_forms_length w Hw).
    assert (G : forall ks n d, (forall j k, nth_error ks j = Some k -> nth_error (INVERTED_WORDS_CACHES (w_type w)) (n + j) = Some k) ->
      add_forms U d w (seq n (length ks)) = regs d (map (slot_form w) ks)).
    { induction ks as [|k ks IH]; intros n d0 Hk; [reflexivity|]. cbn [length seq map add_forms regs].
      assert (E := Hk 0 k eq_refl). rewrite Nat.add_0_r in E. unfold py_nth. rewrite E. cbn [bind]. fold (slot_form w k).
      destruct (add_form U d0 (slot_form w k)); [|reflexivity]. apply IH. intros j k' Hj. rewrite <- (Hk (S j) k' Hj). f_equal. lia. }
    apply (G _ 0 d). intros j k Hj. exact Hj.
  Qed.
  Definition all_the_forms (ws : list word) : list wordform := concat (map word_forms ws).
  Lemma add_words_regs ws : Forall is_word ws -> forall d, add_words U d ws = regs d (all_the_forms ws).
  Proof.
    induction 1 as [|w ws Hw _ IH]; intros d; [reflexivity|]. cbn [add_words]. unfold all_the_forms in *. cbn [map concat]. rewrite regs_app, <- (add_word_regs w d Hw).
    destruct (add_word U d w) as [d' [[]|e]]; [apply IH|reflexivity].
  Qed.
  Lemma aw_start_forms w : is_word w -> aw_start w = AW_next (word_forms w).
  Proof. intros Hw. unfold aw_start. rewrite (all_forms_eq w Hw). reflexivity. Qed.

  (** what is still to be registered *)
  Definition aw_rest (call : aw_pc) : list wordform :=
    match call with AW_next l => l | AW_insert f _ l | AW_read f _ l | AW_replace f _ l => f :: l | AW_done _ => [] end.
  (** the state of the loop, at any point: the forms P have been registered *)
  Definition loading (ws : list word) (d : dictionary) (D : dictionary) (pc : ld_pc) : Prop :=
    Forall is_word (ld_rest pc) /\
    exists P, regs d P = (D, Ok tt) /\
      match ld_call pc with
      | AW_done (Err e) => regs d (all_the_forms ws) = (D, Err e) /\ (exists Q, all_the_forms ws = P ++ Q)
      | call => all_the_forms ws = P ++ aw_rest call ++ all_the_forms (ld_rest pc)
      end /\
      match ld_call pc with
      | AW_insert f t _ => wf_form U f = Ok t /\ dget str_eqb t D = None
      | AW_read f t _ => wf_form U f = Ok t /\ dget str_eqb t D <> None
      | AW_replace f t _ => wf_form U f = Ok t /\ exists g, dget str_eqb t D = Some g /\ replaces f g = true
      | _ => True
      end.
  Lemma loading_start ws d : Forall is_word ws -> loading ws d d (ld_start ws).
  Proof. intros H. split; [exact H|]. exists []. split; [reflexivity|]. split; [reflexivity|exact I]. Qed.
  Lemma regs_snoc d P D f : regs d P = (D, Ok tt) -> regs d (P ++ [f]) = match add_form U D f with Ok d' => (d', Ok tt) | Err e => (D, Err e) end.
  Proof. intros H. rewrite regs_app, H. cbn [regs]. destruct (add_form U D f); reflexivity. Qed.
  Lemma loading_step ws d D pc : loading ws d D pc -> loading ws d (fst (ld_step U D pc)) (snd (ld_step U D pc)).
  Proof.
    destruct pc as [call rest]. intros (Hw & P & HP & Hl & Hc). cbn [ld_call ld_rest] in *. unfold ld_step. cbn [ld_call ld_rest].
    destruct call as [[|f l]|f t l|f t l|f t l|[[]|e]]; cbn [aw_step aw_rest app] in *.
    - cbn [fst snd]. split; [exact Hw|]. exists P. cbn [ld_call ld_rest aw_rest app]. auto.
    - cbn [fst snd]. split; [exact Hw|]. exists P. split; [exact HP|]. cbn [ld_call ld_rest].
      destruct (wf_form U f) as [t|e] eqn:Ef.
      + unfold dmem. destruct (dget str_eqb t D) eqn:Ed; cbn [aw_rest app]; (split; [exact Hl|]); split; auto; congruence.
      + split; [|exact I]. split; [|eexists; exact Hl]. rewrite Hl, regs_app, HP. cbn [regs]. unfold add_form. rewrite Ef. reflexivity.
    - destruct Hc as [Ef Ed]. cbn [fst snd]. split; [exact Hw|]. exists (P ++ [f]). split.
      + rewrite (regs_snoc d P D f HP). unfold add_form. rewrite Ef. cbn [bind]. rewrite Ed. reflexivity.
      + cbn [ld_call ld_rest aw_rest]. rewrite <- app_assoc. cbn [app]. auto.
    - destruct Hc as [Ef Ed]. cbn [fst snd]. split; [exact Hw|]. destruct (dget str_eqb t D) as [g|] eqn:Eg; [|congruence]. destruct (replaces f g) eqn:Er.
      + exists P. split; [exact HP|]. cbn [ld_call ld_rest aw_rest app]. split; [exact Hl|]. split; [exact Ef|]. exists g. auto.
      + exists (P ++ [f]). split.
        * rewrite (regs_snoc d P D f HP). unfold add_form. rewrite Ef. cbn [bind]. rewrite Eg, Er. reflexivity.
        * cbn [ld_call ld_rest aw_rest]. rewrite <- app_assoc. cbn [app]. auto.
    - destruct Hc as [Ef (g & Eg & Er)]. cbn [fst snd]. split; [exact Hw|]. exists (P ++ [f]). split.
      + rewrite (regs_snoc d P D f HP). unfold add_form. rewrite Ef. cbn [bind]. rewrite Eg, Er. reflexivity.
      + cbn [ld_call ld_rest aw_rest]. rewrite <- app_assoc. cbn [app]. auto.
    - destruct rest as [|w rest]; cbn [fst snd].
      + split; [exact Hw|]. exists P. cbn [ld_call ld_rest aw_rest app]. auto.
      + inversion Hw as [|? ? Hw1 Hw2]; subst. split; [exact Hw2|]. exists P. split; [exact HP|]. cbn [ld_call ld_rest]. rewrite (aw_start_forms w Hw1). cbn [aw_rest]. auto.
    - destruct rest as [|w rest]; cbn [fst snd]; (split; [exact Hw|]); exists P; cbn [ld_call ld_rest]; auto.
  Qed.
  Lemma loading_at ws d n : Forall is_word ws -> loading ws d (interrupted_load U ws d n) (snd (moved (ld_step U) n d (ld_start ws))).
  Proof. intros H. unfold interrupted_load. apply (moved_invariant (ld_step U) (loading ws d)); [apply loading_step|apply loading_start, H]. Qed.
  Lemma loaded_part ws d n : Forall is_word ws -> exists P Q, all_the_forms ws = P ++ Q /\ regs d P = (interrupted_load U ws d n, Ok tt).
  Proof.
    intros H. destruct (loading_at ws d n H) as (_ & P & HP & Hl & _). exists P. destruct (ld_call _) as [l|f t l|f t l|f t l|[[]|e]].
    6: destruct Hl as [_ [Q HQ]]; exists Q; auto. all: eexists; split; [exact Hl|exact HP].
  Qed.

  (** entries only get better *)
  Definition no_worse (g g' : wordform) : Prop := g' = g \/ preferred g' g.
  Lemma no_worse_trans a b c : no_worse a b -> no_worse b c -> no_worse a c.
  Proof. intros [->|H] [->|H']; unfold no_worse; auto. right. eapply preferred_trans; eassumption. Qed.
  Lemma add_form_better D f D' t g : add_form U D f = Ok D' -> dget str_eqb t D = Some g -> exists g', dget str_eqb t D' = Some g' /\ no_worse g g'.
  Proof.
    unfold add_form. intros H Hg. destruct (wf_form U f) as [s|]; [|discriminate]. cbn [bind] in H.
    destruct (dget str_eqb s D) as [g0|] eqn:Es; [destruct (replaces f g0) eqn:Er|]; injection H as <-.
    - rewrite (dget_dset _ str_eqb_ok). destruct (str_eqb s t) eqn:E; [|exists g; split; [exact Hg|left; reflexivity]]. apply str_eqb_ok in E. subst s.
      exists f. split; [reflexivity|]. right. apply replaces_iff. congruence.
    - exists g. split; [exact Hg|left; reflexivity].
    - rewrite (dget_dset _ str_eqb_ok). destruct (str_eqb s t) eqn:E; [apply str_eqb_ok in E; congruence|exists g; split; [exact Hg|left; reflexivity]].
  Qed.
  Lemma regs_better l : forall D D' r t g, regs D l = (D', r) -> dget str_eqb t D = Some g -> exists g', dget str_eqb t D' = Some g' /\ no_worse g g'.
  Proof.
    induction l as [|f l IH]; intros D D' r t g H Hg; cbn [regs] in H; [injection H as <- _; exists g; split; [exact Hg|left; reflexivity]|].
    destruct (add_form U D f) as [D1|e] eqn:E; [|injection H as <- _; exists g; split; [exact Hg|left; reflexivity]].
    destruct (add_form_better D f D1 t g E Hg) as (g1 & H1 & B1). destruct (IH D1 D' r t g1 H H1) as (g2 & H2 & B2). exists g2. split; [exact H2|eapply no_worse_trans; eassumption].
  Qed.
  (** a registered form has an entry that is not worse *)
  Lemma add_form_entry D f D' : add_form U D f = Ok D' -> exists t g, wf_form U f = Ok t /\ dget str_eqb t D' = Some g /\ ~ preferred f g.
  Proof.
    unfold add_form. destruct (wf_form U f) as [t|]; [|discriminate]. cbn [bind]. intros H. exists t.
    destruct (dget str_eqb t D) as [g|] eqn:Eg; [destruct (replaces f g) eqn:Er|]; injection H as <-.
    - exists f. split; [reflexivity|]. rewrite (dget_dset_same _ str_eqb_ok). split; [reflexivity|apply preferred_irrefl].
    - exists g. split; [reflexivity|]. split; [exact Eg|]. intros Hp. apply replaces_iff in Hp. congruence.
    - exists f. split; [reflexivity|]. rewrite (dget_dset_same _ str_eqb_ok). split; [reflexivity|apply preferred_irrefl].
  Qed.
  Lemma regs_entry l : forall D D', regs D l = (D', Ok tt) -> forall f, In f l -> exists t g, wf_form U f = Ok t /\ dget str_eqb t D' = Some g /\ ~ preferred f g.
  Proof.
    induction l as [|f l IH]; intros D D' H x Hx; [destruct Hx|]. cbn [regs] in H. destruct (add_form U D f) as [D1|e] eqn:E; [|discriminate].
    destruct Hx as [<-|Hx]; [|exact (IH D1 D' H x Hx)]. destruct (add_form_entry D f D1 E) as (t & g & Et & Eg & Hn).
    destruct (regs_better l D1 D' (Ok tt) t g H Eg) as (g' & Eg' & [->|B]); [exists t, g; auto|]. exists t, g'. split; [exact Et|]. split; [exact Eg'|].
    intros Hp. apply Hn. eapply preferred_trans; eassumption.
  Qed.
  (** registering again changes nothing *)
  Lemma regs_again D l : (forall f, In f l -> exists t g, wf_form U f = Ok t /\ dget str_eqb t D = Some g /\ ~ preferred f g) -> regs D l = (D, Ok tt).
  Proof.
    induction l as [|f l IH]; intros H; [reflexivity|]. cbn [regs]. destruct (H f (or_introl eq_refl)) as (t & g & Et & Eg & Hn).
    unfold add_form. rewrite Et. cbn [bind]. rewrite Eg. destruct (replaces f g) eqn:Er; [apply replaces_iff in Er; contradiction|]. apply IH. intros x Hx. apply H. right. exact Hx.
  Qed.
  Lemma regs_resume d P Q D : regs d P = (D, Ok tt) -> regs D (P ++ Q) = regs d (P ++ Q).
  Proof. intros H. rewrite !regs_app, H, (regs_again D P (regs_entry P d D H)). reflexivity. Qed.
  (** where the entries come from *)
  Lemma add_form_origin D f D' t g : add_form U D f = Ok D' -> dget str_eqb t D' = Some g -> dget str_eqb t D = Some g \/ (g = f /\ wf_form U f = Ok t).
  Proof.
    unfold add_form. intros H Hg. destruct (wf_form U f) as [s|]; [|discriminate]. cbn [bind] in H.
    destruct (dget str_eqb s D) as [g0|] eqn:Es; [destruct (replaces f g0)|]; injection H as <-; auto; rewrite (dget_dset _ str_eqb_ok) in Hg;
      (destruct (str_eqb s t) eqn:E; [apply str_eqb_ok in E; subst s; injection Hg as <-; auto|auto]).
  Qed.
  Lemma regs_origin l : forall D D' r t g, regs D l = (D', r) -> dget str_eqb t D' = Some g -> dget str_eqb t D = Some g \/ (In g l /\ wf_form U g = Ok t).
  Proof.
    induction l as [|f l IH]; intros D D' r t g H Hg; cbn [regs] in H; [injection H as <- _; auto|].
    destruct (add_form U D f) as [D1|e] eqn:E; [|injection H as <- _; auto]. destruct (IH D1 D' r t g H Hg) as [H1|[H1 H2]]; [|right; split; [right; exact H1|exact H2]].
    destruct (add_form_origin D f D1 t g E H1) as [H2|[-> H2]]; [auto|right; split; [left; reflexivity|exact H2]].
  Qed.
  (** the loop ends *)
  Definition aw_left (call : aw_pc) : nat :=
    match call with AW_next l => 1 + 3 * length l | AW_insert _ _ l => 2 + 3 * length l | AW_replace _ _ l => 2 + 3 * length l | AW_read _ _ l => 3 + 3 * length l | AW_done _ => 0 end.
  Definition ld_left (pc : ld_pc) : nat := aw_left (ld_call pc) + list_sum (map (fun w => 2 + 3 * length (word_forms w)) (ld_rest pc)) * match ld_call pc with AW_done (Err _) => 0 | _ => 1 end.
  Lemma ld_left_step ws d D pc : loading ws d D pc -> ld_left (snd (ld_step U D pc)) <= pred (ld_left pc).
  Proof.
    destruct pc as [call rest]. intros (Hw & _). cbn [ld_rest] in Hw. unfold ld_step, ld_left. cbn [ld_call ld_rest].
    set (S := list_sum (map (fun w => 2 + 3 * length (word_forms w)) rest)).
    destruct call as [[|f l]|f t l|f t l|f t l|[[]|e]]; cbn [aw_step]; cbn [snd ld_call ld_rest aw_left length]; fold S; try lia.
    - destruct (wf_form U f) as [t|e]; [destruct (dmem str_eqb t D)|]; cbn [aw_left]; fold S; lia.
    - destruct (dget str_eqb t D) as [g|]; [destruct (replaces f g)|]; cbn [aw_left]; fold S; lia.
    - subst S. destruct rest as [|w rest]; [cbn; lia|]. inversion Hw as [|? ? Hw1 Hw2]; subst. cbn [snd ld_call ld_rest]. rewrite (aw_start_forms w Hw1). cbn [aw_left map list_sum fold_right]. unfold list_sum. lia.
  Qed.
  Lemma load_ends ws d n : Forall is_word ws -> ld_left (ld_start ws) <= n -> interrupted_load U ws d n = fst (add_words U d ws).
  Proof.
    intros Hw Hn. assert (M := moved_measure (ld_step U) (loading ws d) ld_left (fun s pc H => conj (loading_step ws d s pc H) (ld_left_step ws d s pc H)) n d (ld_start ws) (loading_start ws d Hw)).
    destruct (loading_at ws d n Hw) as (_ & P & HP & Hl & _). rewrite (add_words_regs ws Hw d).
    unfold interrupted_load in *. destruct (snd (moved (ld_step U) n d (ld_start ws))) as [call rest] eqn:E. cbn [ld_call ld_rest] in *.
    unfold ld_left in M at 1. cbn [ld_call ld_rest] in M. destruct call as [l|f t l|f t l|f t l|[[]|e]]; cbn [aw_left] in M; try lia.
    - destruct rest as [|w rest]; [|cbn [map list_sum fold_right] in M; lia]. cbn [aw_rest app] in Hl. unfold all_the_forms at 2 in Hl. cbn [map concat] in Hl.
      rewrite app_nil_r in Hl. rewrite Hl, HP. reflexivity.
    - destruct Hl as [-> _]. reflexivity.
  Qed.
End Dictionary.

(** ** add_template *)
Section Lexicon.
  Context {K T R : Type} (keqb : K -> K -> bool) (keqb_ok : eqb_ok keqb).
  Notation lexicon := (lexicon K T R).
  Lemma dset_twice {V} (d : dict K V) k a b : dset keqb k b (dset keqb k a d) = dset keqb k b d.
  Proof.
    induction d as [|[x v] d IH]; cbn [dset].
    - rewrite (proj2 (keqb_ok k k) eq_refl). reflexivity.
    - destruct (keqb k x) eqn:E; cbn [dset]; rewrite E; [reflexivity|]. f_equal. exact IH.
  Qed.
  (** the values of the lexicon at each crash point *)
  Definition created (l : lexicon) (key : K) : lexicon := if dmem keqb key l then l else dset keqb key [] l.
  Lemma add_created (l : lexicon) key t rs : add_template keqb (created l key) key t rs = add_template keqb l key t rs.
  Proof.
    unfold created. destruct (dmem keqb key l) eqn:E; [reflexivity|]. unfold add_template. rewrite E.
    assert (H : dmem keqb key (dset keqb key [] l) = true) by (unfold dmem; rewrite (dget_dset_same _ keqb_ok); reflexivity). rewrite H. reflexivity.
  Qed.
  Lemma view_dset (lists : list (list (T * list R))) data k n : 
    lx_view {| lx_lists := lists; lx_data := dset keqb k n data |} = dset keqb k (nth n lists []) (lx_view {| lx_lists := lists; lx_data := data |}).
  Proof. unfold lx_view. cbn [lx_lists lx_data]. induction data as [|[x v] data IH]; [reflexivity|]. cbn [dset map fst snd]. destruct (keqb k x); [reflexivity|]. cbn [map fst snd]. f_equal. exact IH. Qed.
  (** the list objects of the initial lexicon are all different *)
  Definition separate (s : lx_state K T R) : Prop := NoDup (map snd (lx_data s)) /\ forall k r, In (k, r) (lx_data s) -> r < length (lx_lists s).
  Lemma separate_of (l : lexicon) : separate (lx_of l).
  Proof.
    unfold separate, lx_of. cbn [lx_data lx_lists].
    assert (G : forall a, map snd (combine (map fst l) (seq a (length l))) = seq a (length l)) by (induction l as [|x l IH]; intros a; cbn; [reflexivity|f_equal; apply IH]).
    rewrite G. split; [apply seq_NoDup|]. intros k r H. apply in_combine_r, in_seq in H. rewrite map_length. lia.
  Qed.
  Lemma view_append (s : lx_state K T R) k r x : separate s -> dget keqb k (lx_data s) = Some r ->
    lx_view {| lx_lists := list_set r (nth r (lx_lists s) [] ++ [x]) (lx_lists s); lx_data := lx_data s |} = dset keqb k (nth r (lx_lists s) [] ++ [x]) (lx_view s).
  Proof.
    destruct s as [lists data]. unfold separate, lx_view. cbn [lx_lists lx_data]. intros [Hn Hb] Hg.
    assert (Hr : r < length lists). { apply (Hb k). clear -Hg keqb_ok. induction data as [|[y v] data IH]; [discriminate|]. cbn [dget] in Hg. destruct (keqb k y) eqn:E; [apply keqb_ok in E; subst; injection Hg as ->; left; reflexivity|right; auto]. }
    set (L := nth r lists [] ++ [x]). clearbody L. induction data as [|[y v] data IH]; [discriminate|]. cbn [dget] in Hg. cbn [map fst snd dset].
    inversion Hn as [|? ? Hn1 Hn2]; subst. cbn [snd] in *. rewrite (nth_list_set lists r L [] v Hr). destruct (keqb k y) eqn:E.
    - injection Hg as ->. rewrite Nat.eqb_refl. f_equal. apply map_ext_in. intros [z q] Hz. cbn [fst snd]. f_equal. rewrite (nth_list_set lists r L [] q Hr).
      destruct (Nat.eqb_spec q r) as [->|]; [|reflexivity]. exfalso. apply Hn1. apply in_map_iff. exists (z, r). auto.
    - assert (Hne : v <> r). { intros ->. apply Hn1. apply in_map_iff. exists (k, r). split; [reflexivity|]. clear -Hg keqb_ok. induction data as [|[y2 v2] data IH]; [discriminate|]. cbn [dget] in Hg. destruct (keqb k y2) eqn:E; [apply keqb_ok in E; subst; injection Hg as ->; left; reflexivity|right; auto]. }
      apply Nat.eqb_neq in Hne. rewrite Hne. f_equal. apply IH; [exact Hn2|intros k' r' H'; apply (Hb k'); right; exact H'|exact Hg].
  Qed.
  Definition adding_at (l : lexicon) (c : lx_call K T R) (s : lx_state K T R) (pc : at_pc K T R) : Prop :=
    separate s /\
    match pc with
    | AT_test c' => c' = c /\ lx_view s = l
    | AT_create c' => c' = c /\ lx_view s = l /\ dmem keqb (lc_key c) l = false
    | AT_load c' => c' = c /\ lx_view s = created l (lc_key c) /\ dmem keqb (lc_key c) (lx_data s) = true
    | AT_append c' r => c' = c /\ lx_view s = created l (lc_key c) /\ dget keqb (lc_key c) (lx_data s) = Some r
    | AT_done c' r => c' = c /\ r = Ok tt /\ lx_view s = add_template keqb l (lc_key c) (snd (fst c)) (snd c)
    end.
  Lemma dmem_view (s : lx_state K T R) k : dmem keqb k (lx_view s) = dmem keqb k (lx_data s).
  Proof. destruct s as [lists data]. unfold dmem. rewrite dget_view. cbn [lx_data]. destruct (dget keqb k data); reflexivity. Qed.
  Lemma adding_step l c s pc : adding_at l c s pc -> adding_at l c (fst (at_step keqb s pc)) (snd (at_step keqb s pc)).
  Proof.
    intros [Hs H]. destruct pc as [c'|c'|c'|c' r|c' r]; cbn [at_step fst snd] in *.
    - destruct H as [-> Hv]. split; [exact Hs|]. destruct (dmem keqb (lc_key c) (lx_data s)) eqn:E.
      + split; [reflexivity|]. split; [|first [reflexivity|exact E]]. unfold created. rewrite <- Hv, dmem_view, E. reflexivity.
      + split; [reflexivity|]. split; [exact Hv|]. rewrite <- Hv, dmem_view. exact E.
    - destruct H as (-> & Hv & Hm). assert (Hd : ~ In (lc_key c) (dkeys (lx_data s))) by (apply (dmem_false _ keqb_ok); rewrite <- dmem_view, Hv; exact Hm).
      split.
      + destruct Hs as [S1 S2]. unfold separate. cbn [lx_lists lx_data]. rewrite (dset_new _ keqb_ok) by exact Hd. rewrite map_app, app_length. cbn [map snd length]. split.
        * apply NoDup_app_one; [exact S1|]. intros Hx. apply in_map_iff in Hx as ([k q] & Hq & Hin). cbn in Hq. subst q. apply S2 in Hin. lia.
        * intros k q Hin. apply in_app_or in Hin as [Hin|[[= <- <-]|[]]]; [apply S2 in Hin; lia|lia].
      + split; [reflexivity|]. cbn [lx_data]. split; [|unfold dmem; rewrite (dget_dset_same _ keqb_ok); reflexivity].
        rewrite view_dset, app_nth2, Nat.sub_diag by lia. cbn [nth]. unfold created. rewrite Hm. f_equal. rewrite <- Hv. unfold lx_view. cbn [lx_lists lx_data].
        apply map_ext. intros [k q]. cbn [fst snd]. f_equal. apply nth_app_nil.
    - destruct H as (-> & Hv & Hm). split; [exact Hs|]. unfold dmem in Hm. destruct (dget keqb (lc_key c) (lx_data s)) as [r|] eqn:E; [|discriminate]. auto.
    - destruct H as (-> & Hv & Hg). split.
      + destruct Hs as [S1 S2]. split; [exact S1|]. cbn [lx_lists lx_data]. intros k q Hin. rewrite list_set_length. exact (S2 k q Hin).
      + split; [reflexivity|]. split; [reflexivity|]. rewrite (view_append s (lc_key c) r _ Hs Hg), Hv. rewrite <- add_created. unfold add_template at 1.
        assert (Hm : dmem keqb (lc_key c) (created l (lc_key c)) = true) by (rewrite <- Hv, dmem_view; unfold dmem; rewrite Hg; reflexivity). rewrite Hm.
        assert (Hx : dget keqb (lc_key c) (created l (lc_key c)) = Some (nth r (lx_lists s) [])) by (rewrite <- Hv; destruct s as [lists data]; rewrite dget_view; cbn [lx_data lx_lists] in *; rewrite Hg; reflexivity).
        rewrite Hx. reflexivity.
    - split; [exact Hs|exact H].
  Qed.
  Lemma adding_moved l c n : adding_at l c (fst (moved (at_step keqb) n (lx_of l) (AT_test c))) (snd (moved (at_step keqb) n (lx_of l) (AT_test c))).
  Proof. apply (moved_invariant (at_step keqb) (adding_at l c)); [apply adding_step|]. split; [apply separate_of|]. split; [reflexivity|apply view_of]. Qed.
  Lemma interrupted_add_cases l (c : lx_call K T R) n : interrupted_add keqb l c n = l \/ interrupted_add keqb l c n = created l (lc_key c) \/ interrupted_add keqb l c n = add_template keqb l (lc_key c) (snd (fst c)) (snd c).
  Proof. destruct (adding_moved l c n) as [_ H]. unfold interrupted_add. destruct (snd (moved (at_step keqb) n (lx_of l) (AT_test c))); destruct H as (_ & H); tauto. Qed.
  Definition at_left (pc : at_pc K T R) : nat := match pc with AT_test _ => 4 | AT_create _ => 3 | AT_load _ => 2 | AT_append _ _ => 1 | AT_done _ _ => 0 end.
  Lemma at_left_step s pc : at_left (snd (at_step keqb s pc)) <= pred (at_left pc).
  Proof. destruct pc as [c|c|c|c r|c r]; cbn; [destruct (dmem keqb (lc_key c) (lx_data s)); cbn; lia|lia|destruct (dget keqb (lc_key c) (lx_data s)); cbn; lia|lia|lia]. Qed.
  Lemma add_ends l (c : lx_call K T R) n : 4 <= n -> interrupted_add keqb l c n = add_template keqb l (lc_key c) (snd (fst c)) (snd c).
  Proof.
    intros Hn. assert (M := moved_measure (at_step keqb) (fun _ _ => True) at_left (fun s pc _ => conj I (at_left_step s pc)) n (lx_of l) (AT_test c) I).
    destruct (adding_moved l c n) as [_ H]. unfold interrupted_add. destruct (snd (moved (at_step keqb) n (lx_of l) (AT_test c))); cbn [at_left] in M; try lia. apply H.
  Qed.
End Lexicon.

(** ** parse *)
Section Parse.
  Context (U : unicode).
  Definition parsing (t0 : template) (text : str) (ext : externals) (t : template) (pc : tt_pc) : Prop :=
    let full := parse_template U t0 text ext in
    exists more, t_subs t = t_subs t0 ++ more /\
    match pc with
    | TT_parse ext' vs tx => ext' = ext /\ t_text t = t_text t0 /\
        full = match parse_loop U ext vs tx (t_subs t) with (subs, Ok text') => ({| t_subs := subs; t_text := Some text' |}, Ok tt) | (subs, Err e) => ({| t_subs := subs; t_text := t_text t0 |}, Err e) end
    | TT_parsed r => full = (t, r)
    | _ => False
    end.
  Lemma parsing_step t0 text ext t pc : parsing t0 text ext t pc -> parsing t0 text ext (fst (tt_step U t pc)) (snd (tt_step U t pc)).
  Proof.
    intros (more & Hm & H). destruct pc as [ext' [|v vs] tx|r| | | | | | | |]; try contradiction; cbn [tt_step].
    - destruct H as (-> & Ht & H). cbn [fst snd]. exists more. split; [exact Hm|]. exact H.
    - destruct H as (-> & Ht & H). cbn [parse_loop] in H. destruct (parse_substitution U v ext) as [s|e] eqn:E; cbn [fst snd].
      + exists (more ++ [s]). cbn [t_subs t_text]. split; [rewrite Hm, app_assoc; reflexivity|]. split; [reflexivity|]. split; [exact Ht|exact H].
      + exists more. split; [exact Hm|]. rewrite H, <- Ht. destruct t; reflexivity.
    - cbn [fst snd]. exists more. auto.
  Qed.
  Lemma parsing_moved t text ext n : parsing t text ext (interrupted_parse U t text ext n) (snd (moved (tt_step U) n t (tt_start (CParse text ext)))).
  Proof.
    unfold interrupted_parse. apply (moved_invariant (tt_step U) (parsing t text ext)); [apply parsing_step|]. exists []. split; [rewrite app_nil_r; reflexivity|].
    split; [reflexivity|]. split; reflexivity.
  Qed.
  Definition tt_left (pc : tt_pc) : nat := match pc with TT_parse _ vs _ => S (length vs) | _ => 0 end.
  Lemma tt_left_step t pc : tt_left (snd (tt_step U t pc)) <= pred (tt_left pc).
  Proof.
    destruct pc as [ext' [|v vs] tx|r|ext d p l|tx|r|ext d p l|l| |tx p l|r]; cbn [tt_step]; try (cbn; lia).
    - destruct (parse_substitution U v ext'); cbn; lia.
    - cbn [snd]. destruct (nth_error (t_subs t) p); [destruct (get_text U s ext d)|]; cbn; lia.
    - cbn [snd]. destruct (nth_error (t_subs t) p); cbn; lia.
    - cbn [snd]. destruct (nth_error (t_subs t) p); [destruct (serialize_substitution s)|]; cbn; lia.
  Qed.
  Lemma parse_ends t text ext n : length (find_variables (escape text)) < n -> interrupted_parse U t text ext n = fst (parse_template U t text ext).
  Proof.
    intros Hn. assert (M := moved_measure (tt_step U) (fun _ _ => True) tt_left (fun s pc _ => conj I (tt_left_step s pc)) n t (tt_start (CParse text ext)) I).
    destruct (parsing_moved t text ext n) as (more & _ & H). cbn [tt_start tt_left] in M.
    unfold interrupted_parse in *. set (X := moved (tt_step U) n t _) in *. cbn [tt_start] in X. fold X in M. destruct (snd X) eqn:E; try contradiction; cbn [tt_left] in M; [lia|]. rewrite H. reflexivity.
  Qed.
End Parse.

(** ** autofill *)
Lemma autofill_prefix t forms : length forms = length (INVERTED_WORDS_CACHES t) ->
  forall m i cur, i + m <= length forms -> length cur = length forms ->
  (forall j, nth_error cur j = if Nat.ltb j i then option_map (filled t forms j) (nth_error forms j) else nth_error forms j) ->
  exists cur', foldM (autofill_step t (given_keys t forms)) (seq i m) cur = Ok cur' /\ length cur' = length forms /\
    forall j, nth_error cur' j = if Nat.ltb j (i + m) then option_map (filled t forms j) (nth_error forms j) else nth_error forms j.
Proof.
  intros Hlen. induction m as [|m IH]; intros i cur Hm Hl Hcur.
  - exists cur. rewrite Nat.add_0_r. auto.
  - cbn [seq foldM].
    assert (Hi : exists f, nth_error forms i = Some f) by (destruct (nth_error forms i) eqn:E; [eauto|apply nth_error_None in E; lia]).
    destruct Hi as [f Hf].
    assert (Hcf : nth_error cur i = Some f) by (rewrite Hcur, Nat.ltb_irrefl; exact Hf).
    assert (G : exists cur1, autofill_step t (given_keys t forms) cur i = Ok cur1 /\ length cur1 = length forms /\
      forall j, nth_error cur1 j = if Nat.ltb j (S i) then option_map (filled t forms j) (nth_error forms j) else nth_error forms j).
    { unfold autofill_step, py_nth. rewrite Hcf. cbn [bind].
      assert (Hsame : filled t forms i f = f -> forall j, nth_error cur j = if Nat.ltb j (S i) then option_map (filled t forms j) (nth_error forms j) else nth_error forms j).
      { intros E j. rewrite Hcur. destruct (Nat.ltb_spec j i), (Nat.ltb_spec j (S i)); try lia; try reflexivity.
        assert (j = i) by lia. subst j. rewrite Hf. simpl. rewrite E. reflexivity. }
      unfold filled in Hsame. destruct (nonempty f) eqn:En; [exists cur; split; [reflexivity|split; [exact Hl|apply Hsame; reflexivity]]|].
      destruct (nth_error (INVERTED_WORDS_CACHES t) i) as [k|] eqn:Ek; [|apply nth_error_None in Ek; assert (nth_error forms i = None) by (apply nth_error_None; lia); congruence].
      cbn [bind]. destruct (get_nearest_key k (given_keys t forms)) as [nk|] eqn:Enk;
        [|exists cur; split; [reflexivity|split; [exact Hl|apply Hsame; reflexivity]]].
      assert (Hnk := Enk). apply get_nearest_key_iff, nearest_in, in_given_keys in Hnk as (s & fs & Hs & Hfs & Hne).
      assert (Hd := Hs). apply WORDS_CACHES_dget in Hd. rewrite Hd. rewrite Hd in Hsame.
      assert (Hcs : nth_error cur s = Some fs).
      { rewrite Hcur. destruct (Nat.ltb s i); [|exact Hfs]. rewrite Hfs. simpl. unfold filled. rewrite (proj2 (nonempty_iff fs) Hne). reflexivity. }
      rewrite Hcs. cbn [bind]. exists (list_set i fs cur). split; [reflexivity|]. split; [rewrite list_set_length; exact Hl|].
      intros j. rewrite list_set_nth. destruct (Nat.eqb_spec i j) as [<-|Hij].
      - rewrite (proj2 (Nat.ltb_lt i (length cur))), (proj2 (Nat.ltb_lt i (S i))) by lia. rewrite Hf. simpl. f_equal.
        unfold filled. rewrite En, Ek, Enk, Hd. symmetry. apply nth_error_nth, Hfs.
      - rewrite Hcur. destruct (Nat.ltb_spec j i), (Nat.ltb_spec j (S i)); try lia; reflexivity. }
    destruct G as (cur1 & -> & Hl1 & H1). cbn [bind]. destruct (IH (S i) cur1) as (cur' & E & L & N); [lia|exact Hl1|exact H1|].
    exists cur'. split; [exact E|]. split; [exact L|]. intros j. rewrite N. replace (S i + m) with (i + S m) by lia. reflexivity.
Qed.
Lemma firstn_seq n a m : firstn n (seq a m) = seq a (Nat.min n m).
Proof. revert a m. induction n as [|n IH]; intros a [|m]; cbn; try reflexivity. f_equal. apply IH. Qed.
Lemma interrupted_autofill_spec w n : is_word w -> exists w', interrupted_autofill w n = Ok w' /\
  w_type w' = w_type w /\ w_props w' = w_props w /\ length (w_forms w') = length (w_forms w) /\
  forall j, nth_error (w_forms w') j = if Nat.ltb j n then option_map (filled (w_type w) (w_forms w) j) (nth_error (w_forms w) j) else nth_error (w_forms w) j.
Proof.
  intros Hw. assert (Hl := word_forms_length w Hw). unfold interrupted_autofill. rewrite available_keys_eq by exact Hl. cbn [bind]. rewrite firstn_seq.
  destruct (autofill_prefix (w_type w) (w_forms w) Hl (Nat.min n (length (w_forms w))) 0 (w_forms w)) as (forms' & -> & H1 & H2); [lia|reflexivity|intros j; reflexivity|].
  cbn [bind]. eexists. split; [reflexivity|]. cbn [w_type w_props w_forms]. repeat split; auto. intros j. rewrite H2. cbn [Nat.add].
  destruct (Nat.ltb_spec j (Nat.min n (length (w_forms w)))), (Nat.ltb_spec j n); try lia; try reflexivity.
  rewrite (proj2 (nth_error_None (w_forms w) j)) by lia. reflexivity.
Qed.
