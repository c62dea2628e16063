(** * LexThreadFacts: the invariant of concurrent calls of add_template *)
From Verif Require Import PyBase PyBaseFacts Words Lexicon Concurrent ConcurrentFacts.
From Coq Require Import Lia Permutation.

Section Facts.
  Context {K T R : Type} (keqb : K -> K -> bool) (keqb_ok : eqb_ok keqb).
  Notation call := (lx_call K T R).
  Notation pcs := (list (at_pc K T R)).
  Context (l0 : lexicon K T R) (nodup0 : NoDup (dkeys l0)) (calls : list call).

  Definition pc_call (pc : at_pc K T R) : call := match pc with AT_test c | AT_create c | AT_load c | AT_append c _ | AT_done c _ => c end.
  Definition base (r : nat) : list (T * list R) := nth r (map snd l0) [].
  Definition only_one (k : K) : Prop := forall i j c c', nth_error calls i = Some c -> nth_error calls j = Some c' -> lc_key c = k -> lc_key c' = k -> i = j.
  Definition safe_key (k : K) : Prop := dmem keqb k l0 = true \/ only_one k.

  Record at_inv (owners : list K) (logs : nat -> list (nat * call)) (st : lx_state K T R * pcs) : Prop := {
    ti_call : forall i pc, nth_error (snd st) i = Some pc -> nth_error calls i = Some (pc_call pc);
    ti_old : length l0 <= length (lx_lists (fst st));
    ti_len : length owners = length (lx_lists (fst st));
    ti_own : forall k r, dget keqb k (lx_data (fst st)) = Some r -> nth_error owners r = Some k;
    ti_app : forall i c r, nth_error (snd st) i = Some (AT_append c r) -> nth_error owners r = Some (lc_key c);
    ti_load : forall i c, nth_error (snd st) i = Some (AT_load c) -> dmem keqb (lc_key c) (lx_data (fst st)) = true;
    ti_done : forall i c r, nth_error (snd st) i = Some (AT_done c r) -> r = Ok tt /\ dmem keqb (lc_key c) (lx_data (fst st)) = true;
    ti_mem : forall i c r, nth_error (snd st) i = Some (AT_append c r) -> dmem keqb (lc_key c) (lx_data (fst st)) = true;
    ti_content : forall r, nth r (lx_lists (fst st)) [] = base r ++ map (fun ic => lc_item (snd ic)) (logs r);
    ti_fresh : forall r, length (lx_lists (fst st)) <= r -> logs r = [];
    ti_nodup : forall r, NoDup (map fst (logs r));
    ti_logs : forall r i c, In (i, c) (logs r) -> nth_error (snd st) i = Some (AT_done c (Ok tt)) /\ nth_error owners r = Some (lc_key c);
    ti_live : forall k r, dget keqb k (lx_data (fst st)) = Some r -> dmem keqb k l0 = false -> logs r <> [] \/
      exists i c, lc_key c = k /\ (nth_error (snd st) i = Some (AT_load c) \/ nth_error (snd st) i = Some (AT_append c r));
    ti_first : forall k, dmem keqb k l0 = true -> dget keqb k (lx_data (fst st)) = dget keqb k (lx_data (lx_of l0)) /\
      forall i c, nth_error (snd st) i = Some (AT_create c) -> lc_key c <> k;
    ti_new : forall k r, dget keqb k (lx_data (fst st)) = Some r -> dmem keqb k l0 = false -> length l0 <= r /\ exists c, In c calls /\ lc_key c = k;
    ti_safe : forall k, safe_key k ->
      ((dmem keqb k (lx_data (fst st)) = true /\ forall i c, nth_error (snd st) i = Some (AT_create c) -> lc_key c <> k) \/
       (dmem keqb k (lx_data (fst st)) = false /\ only_one k)) /\
      (forall i c r, nth_error (snd st) i = Some (AT_append c r) -> lc_key c = k -> dget keqb k (lx_data (fst st)) = Some r) /\
      (forall i c r, nth_error (snd st) i = Some (AT_done c r) -> lc_key c = k -> exists r, dget keqb k (lx_data (fst st)) = Some r /\ In (i, c) (logs r)) }.

  (** the objects of the initial lexicon *)
  Lemma dget_numbered_at (ks : list K) : forall a k r, dget keqb k (combine ks (seq a (length ks))) = Some r -> exists n, r = a + n /\ nth_error ks n = Some k.
  Proof.
    induction ks as [|x ks IH]; intros a k r H; [discriminate|]. cbn [length seq combine dget] in H. destruct (keqb k x) eqn:E.
    - injection H as <-. exists 0. apply keqb_ok in E. subst x. split; [lia|reflexivity].
    - apply IH in H as (n & -> & Hn). exists (S n). split; [lia|exact Hn].
  Qed.
  Lemma dget_view (lists : list (list (T * list R))) data k :
    dget keqb k (lx_view {| lx_lists := lists; lx_data := data |}) = match dget keqb k data with Some r => Some (nth r lists []) | None => None end.
  Proof. unfold lx_view. cbn [lx_lists lx_data]. induction data as [|[x r] data IH]; [reflexivity|]. cbn [map fst snd dget]. destruct (keqb k x); [reflexivity|exact IH]. Qed.
  Lemma view_of (l : lexicon K T R) : lx_view (lx_of l) = l.
  Proof.
    unfold lx_view, lx_of. cbn [lx_lists lx_data]. assert (G : forall pre, map (fun kr : K * nat => (fst kr, nth (snd kr) (pre ++ map snd l) [])) (combine (map fst l) (seq (length pre) (length l))) = l); [|exact (G [])].
    induction l as [|[k ts] l IH]; intros pre; [reflexivity|]. cbn [map fst snd length seq combine]. rewrite app_nth2, Nat.sub_diag by lia. cbn [nth]. f_equal.
    specialize (IH (pre ++ [ts])). rewrite app_length, <- app_assoc in IH. cbn [length app] in IH. rewrite Nat.add_1_r in IH. exact IH.
  Qed.
  Lemma dmem_of (l : lexicon K T R) k : dmem keqb k (lx_data (lx_of l)) = dmem keqb k l.
  Proof. rewrite <- (view_of l) at 2. unfold dmem. destruct (lx_of l) as [lists data]. rewrite dget_view. cbn [lx_data]. destruct (dget keqb k data); reflexivity. Qed.

  Lemma dget_of (l : lexicon K T R) k r : dget keqb k (lx_data (lx_of l)) = Some r -> nth_error (map fst l) r = Some k.
  Proof. unfold lx_of. cbn [lx_data]. rewrite <- (map_length fst l). intros H. apply dget_numbered_at in H as (n & -> & H). exact H. Qed.
  Lemma at_inv_start : at_inv (map fst l0) (fun _ => []) (lx_of l0, map AT_test calls).
  Proof.
    assert (N : forall i pc, nth_error (map AT_test calls) i = Some pc -> exists c, nth_error calls i = Some c /\ pc = AT_test c).
    { intros i pc H. rewrite nth_error_map in H. destruct (nth_error calls i) as [c|]; [|discriminate]. injection H as <-. eauto. }
    split; cbn [fst snd].
    - intros i pc H. apply N in H as (c & H & ->). exact H.
    - unfold lx_of. cbn [lx_lists]. rewrite map_length. lia.
    - unfold lx_of. cbn [lx_lists]. rewrite !map_length. reflexivity.
    - intros k r. apply dget_of.
    - intros i c r H. apply N in H as (? & _ & H). discriminate.
    - intros i c H. apply N in H as (? & _ & H). discriminate.
    - intros i c r H. apply N in H as (? & _ & H). discriminate.
    - intros i c r H. apply N in H as (? & _ & H). discriminate.
    - intros r. rewrite app_nil_r. reflexivity.
    - reflexivity.
    - intros r. constructor.
    - intros r i c [].
    - intros k r H E. apply dmem_false in E; [|exact keqb_ok]. exfalso. apply E. apply (nth_error_In _ r), dget_of, H.
    - intros k H. split; [reflexivity|]. intros i c Hc. apply N in Hc as (? & _ & Hc). discriminate.
    - intros k r H E. exfalso. rewrite <- dmem_of in E. unfold dmem in E. rewrite H in E. discriminate.
    - intros k Hs. split; [|split].
      + rewrite dmem_of. destruct Hs as [Hs|Hs].
        * left. split; [exact Hs|]. intros i c Hc. apply N in Hc as (? & _ & Hc). discriminate.
        * destruct (dmem keqb k l0) eqn:E; [left|right; auto]. split; [reflexivity|]. intros i c Hc. apply N in Hc as (? & _ & Hc). discriminate.
      + intros i c r H. apply N in H as (? & _ & H). discriminate.
      + intros i c r H. apply N in H as (? & _ & H). discriminate.
  Qed.

  Ltac upd Ei H := rewrite (set_nth_at _ _ _ _ _ Ei) in H; let N := fresh "N" in
    match type of H with context[Nat.eqb ?j ?i] => destruct (Nat.eqb_spec j i) as [->|N] end.
  Lemma dmem_dset_mono (d : dict K nat) k k' v : dmem keqb k d = true -> dmem keqb k (dset keqb k' v d) = true.
  Proof. unfold dmem. rewrite (dget_dset _ keqb_ok). destruct (keqb k' k); auto. Qed.
  Lemma dmem_dset_same (d : dict K nat) k v : dmem keqb k (dset keqb k v d) = true.
  Proof. unfold dmem. rewrite (dget_dset_same _ keqb_ok). reflexivity. Qed.
  Lemma nth_at {A} (l : list A) r d x : nth_error l r = Some x -> nth r l d = x.
  Proof. intros H. symmetry. eapply nth_error_nth in H. symmetry. exact H. Qed.
  Lemma nth_app_nil {A} (l : list (list A)) r : nth r (l ++ [[]]) [] = nth r l [].
  Proof.
    destruct (Nat.lt_ge_cases r (length l)) as [H|H]; [apply app_nth1, H|]. rewrite app_nth2 by exact H. rewrite (nth_overflow l) by exact H.
    destruct (r - length l) as [|[|n]]; reflexivity.
  Qed.
  Lemma nth_list_set {A} (l : list A) r x d r' : r < length l -> nth r' (list_set r x l) d = if Nat.eqb r' r then x else nth r' l d.
  Proof.
    intros H. destruct (nth_error l r) as [a|] eqn:E; [|apply nth_error_None in E; lia]. pose proof (set_nth_at l r x r' a E) as S.
    destruct (Nat.eqb r' r); [apply nth_at, S|]. destruct (nth_error l r') as [b|] eqn:E'.
    - rewrite (nth_at _ _ _ _ E'). apply nth_at, S.
    - rewrite !nth_overflow; [reflexivity|apply nth_error_None, E'|apply nth_error_None, S].
  Qed.

  Lemma at_inv_step owners logs st i : at_inv owners logs st -> exists owners' logs', at_inv owners' logs' (step_at (at_step keqb) st i) /\
    forall r x, nth_error owners r = Some x -> nth_error owners' r = Some x.
  Proof.
    intros HI. unfold step_at. destruct (nth_error (snd st) i) as [pc|] eqn:Ei; [|exists owners, logs; split; [exact HI|auto]].
    assert (Ec := ti_call _ _ _ HI _ _ Ei). destruct HI as [Icall Iold Ilen Iown Iapp Iload Idone Imem Icont Ifresh Inodup Ilogs Ilive Ifirst Inew Isafe].
    destruct st as [[lists data] th]. cbn [fst snd lx_lists lx_data] in *.
    destruct pc as [c|c|c|c r|c r]; cbn [at_step fst snd pc_call lx_lists lx_data] in *.
    - (* test *)
      exists owners, logs. split; [|auto]. set (pc' := if dmem keqb (lc_key c) data then AT_load c else AT_create c).
      assert (Epc : pc' = AT_load c /\ dmem keqb (lc_key c) data = true \/ pc' = AT_create c /\ dmem keqb (lc_key c) data = false) by (unfold pc'; destruct (dmem keqb (lc_key c) data); auto).
      clearbody pc'. split; cbn [fst snd lx_lists lx_data]; auto.
      + intros j q H. upd Ei H; [|auto]. injection H as <-. destruct Epc as [[-> _]|[-> _]]; exact Ec.
      + intros j d r H. upd Ei H; [|eauto]. destruct Epc as [[-> _]|[-> _]]; discriminate.
      + intros j d H. upd Ei H; [|eauto]. destruct Epc as [[-> E]|[-> _]]; [injection H as <-; exact E|discriminate].
      + intros j d r H. upd Ei H; [|eauto]. destruct Epc as [[-> _]|[-> _]]; discriminate.
      + intros j d r H. upd Ei H; [|eauto]. destruct Epc as [[-> _]|[-> _]]; discriminate.
      + intros r j d H. destruct (Ilogs r j d H) as [H1 H2]. split; [|exact H2]. rewrite (set_nth_at _ _ _ _ _ Ei). destruct (Nat.eqb_spec j i) as [->|]; [congruence|exact H1].
      + intros k r H1 H2. destruct (Ilive k r H1 H2) as [H|(j & d & Hk & H)]; [left; exact H|]. right. exists j, d. split; [exact Hk|].
        rewrite (set_nth_at _ _ _ _ _ Ei). destruct (Nat.eqb_spec j i) as [->|]; [|exact H]. destruct H; congruence.
      + intros k Hk. destruct (Ifirst k Hk) as [H1 H2]. split; [exact H1|]. intros j d H. upd Ei H; [|eauto]. destruct Epc as [[-> _]|[-> E]]; [discriminate|]. injection H as <-. intros <-.
        assert (Q : dmem keqb (lc_key c) (lx_data (lx_of l0)) = true) by (rewrite dmem_of; exact Hk). unfold dmem in E, Q. rewrite H1 in E. rewrite E in Q. discriminate.
      + intros k Hs. destruct (Isafe k Hs) as (S1 & S2 & S3). split; [|split].
        * destruct S1 as [[Q1 Q2]|Q]; [left|right; exact Q]. split; [exact Q1|]. intros j d H. upd Ei H; [|eauto]. destruct Epc as [[-> _]|[-> E]]; [discriminate|]. injection H as <-. intros <-. congruence.
        * intros j d r H Hk. upd Ei H; [|eauto]. destruct Epc as [[-> _]|[-> _]]; discriminate.
        * intros j d r H Hk. upd Ei H; [|eauto]. destruct Epc as [[-> _]|[-> _]]; discriminate.
    - (* create *)
      exists (owners ++ [lc_key c]), logs.
      assert (L0 : forall r x, nth_error owners r = Some x -> nth_error (owners ++ [lc_key c]) r = Some x).
      { intros r x H. rewrite nth_error_app1; [exact H|]. apply nth_error_Some. congruence. }
      split; [|exact L0]. split; cbn [fst snd lx_lists lx_data].
      + intros j q H. upd Ei H; [|auto]. injection H as <-. exact Ec.
      + rewrite app_length. cbn. lia.
      + rewrite !app_length, Ilen. reflexivity.
      + intros k r H. rewrite (dget_dset _ keqb_ok) in H. destruct (keqb (lc_key c) k) eqn:E; [|apply L0, Iown, H]. injection H as <-. apply keqb_ok in E. subst k.
        rewrite nth_error_app2, Ilen, Nat.sub_diag by lia. reflexivity.
      + intros j d r H. upd Ei H; [discriminate|]. apply L0. eauto.
      + intros j d H. upd Ei H; [injection H as <-; apply dmem_dset_same|]. apply dmem_dset_mono. eauto.
      + intros j d r H. upd Ei H; [discriminate|]. destruct (Idone _ _ _ H). split; [assumption|]. apply dmem_dset_mono. assumption.
      + intros j d r H. upd Ei H; [discriminate|]. apply dmem_dset_mono. eauto.
      + intros r. rewrite nth_app_nil. apply Icont.
      + intros r H. apply Ifresh. rewrite app_length in H. cbn in H. lia.
      + exact Inodup.
      + intros r j d H. destruct (Ilogs r j d H) as [H1 H2]. split; [|apply L0, H2]. rewrite (set_nth_at _ _ _ _ _ Ei). destruct (Nat.eqb_spec j i) as [->|]; [congruence|exact H1].
      + intros k r H1 H2. rewrite (dget_dset _ keqb_ok) in H1. destruct (keqb (lc_key c) k) eqn:E.
        * right. exists i, c. split; [apply keqb_ok, E|]. left. rewrite (set_nth_at _ _ _ _ _ Ei), Nat.eqb_refl. reflexivity.
        * destruct (Ilive k r H1 H2) as [H|(j & d & Hk & H)]; [left; exact H|]. right. exists j, d. split; [exact Hk|].
          rewrite (set_nth_at _ _ _ _ _ Ei). destruct (Nat.eqb_spec j i) as [->|]; [|exact H]. destruct H; congruence.
      + intros k Hk. destruct (Ifirst k Hk) as [H1 H2]. split.
        * rewrite (dget_dset_other _ keqb_ok); [exact H1|]. apply (H2 _ _ Ei).
        * intros j d H. upd Ei H; [discriminate|eauto].
      + intros k r H1 H2. rewrite (dget_dset _ keqb_ok) in H1. destruct (keqb (lc_key c) k) eqn:E; [|eauto]. injection H1 as <-. split; [lia|]. exists c. split; [apply (nth_error_In _ _ Ec)|apply keqb_ok, E].
      + intros k Hs. destruct (Isafe k Hs) as (S1 & S2 & S3). destruct (keqb (lc_key c) k) eqn:E.
        * apply keqb_ok in E. destruct S1 as [[Q1 Q2]|[Q1 Q2]]; [exfalso; apply (Q2 _ _ Ei), E|]. split; [|split].
          -- left. split; [subst k; apply dmem_dset_same|]. intros j d H. upd Ei H; [discriminate|]. intros Hk. apply N. eapply Q2; [exact (Icall _ _ H)|exact Ec|exact Hk|exact E].
          -- intros j d r H Hk. upd Ei H; [discriminate|]. exfalso. apply N. eapply Q2; [exact (Icall _ _ H)|exact Ec|exact Hk|exact E].
          -- intros j d r H Hk. upd Ei H; [discriminate|]. exfalso. apply N. eapply Q2; [exact (Icall _ _ H)|exact Ec|exact Hk|exact E].
        * assert (Eg : forall v, dget keqb k (dset keqb (lc_key c) v data) = dget keqb k data) by (intros v; rewrite (dget_dset _ keqb_ok), E; reflexivity).
          split; [|split].
          -- unfold dmem. rewrite Eg. destruct S1 as [[Q1 Q2]|Q]; [left|right; exact Q]. split; [exact Q1|]. intros j d H. upd Ei H; [discriminate|eauto].
          -- intros j d r H Hk. upd Ei H; [discriminate|]. rewrite Eg. eauto.
          -- intros j d r H Hk. upd Ei H; [discriminate|]. rewrite Eg. eauto.
    - (* load *)
      exists owners, logs. split; [|auto]. assert (Em := Iload _ _ Ei). unfold dmem in Em. destruct (dget keqb (lc_key c) data) as [r0|] eqn:Eg; [|discriminate]. clear Em.
      assert (Em : dmem keqb (lc_key c) data = true) by (unfold dmem; rewrite Eg; reflexivity).
      split; cbn [fst snd lx_lists lx_data]; auto.
      + intros j q H. upd Ei H; [|auto]. injection H as <-. exact Ec.
      + intros j d r H. upd Ei H; [|eauto]. injection H as <- <-. apply Iown, Eg.
      + intros j d H. upd Ei H; [discriminate|eauto].
      + intros j d r H. upd Ei H; [discriminate|eauto].
      + intros j d r H. upd Ei H; [|eauto]. injection H as <- <-. exact Em.
      + intros r j d H. destruct (Ilogs r j d H) as [H1 H2]. split; [|exact H2]. rewrite (set_nth_at _ _ _ _ _ Ei). destruct (Nat.eqb_spec j i) as [->|]; [congruence|exact H1].
      + intros k r H1 H2. destruct (Ilive k r H1 H2) as [H|(j & d & Hk & H)]; [left; exact H|]. right. exists j, d. split; [exact Hk|].
        rewrite (set_nth_at _ _ _ _ _ Ei). destruct (Nat.eqb_spec j i) as [->|]; [|exact H]. right. destruct H as [H|H]; [|congruence]. rewrite Ei in H. injection H as <-. subst k. congruence.
      + intros k Hk. destruct (Ifirst k Hk) as [H1 H2]. split; [exact H1|]. intros j d H. upd Ei H; [discriminate|eauto].
      + intros k Hs. destruct (Isafe k Hs) as (S1 & S2 & S3). split; [|split].
        * destruct S1 as [[Q1 Q2]|Q]; [left|right; exact Q]. split; [exact Q1|]. intros j d H. upd Ei H; [discriminate|eauto].
        * intros j d r H Hk. upd Ei H; [|eauto]. injection H as <- <-. subst k. exact Eg.
        * intros j d r H Hk. upd Ei H; [discriminate|eauto].
    - (* append *)
      assert (Lr : r < length lists) by (rewrite <- Ilen; apply nth_error_Some; rewrite (Iapp _ _ _ Ei); discriminate).
      set (logs' := fun r' => if Nat.eqb r' r then logs r ++ [(i, c)] else logs r'). exists owners, logs'. split; [|auto].
      assert (Lin : forall r' x, In x (logs r') -> In x (logs' r')). { intros r' x H. unfold logs'. destruct (Nat.eqb_spec r' r) as [->|]; [apply in_app_iff; left|]; exact H. }
      assert (Lnew : In (i, c) (logs' r)) by (unfold logs'; rewrite Nat.eqb_refl; apply in_app_iff; right; left; reflexivity).
      split; cbn [fst snd lx_lists lx_data]; auto.
      + intros j q H. upd Ei H; [|auto]. injection H as <-. exact Ec.
      + rewrite list_set_length. exact Iold.
      + rewrite list_set_length. exact Ilen.
      + intros j d r' H. upd Ei H; [discriminate|eauto].
      + intros j d H. upd Ei H; [discriminate|eauto].
      + intros j d r' H. upd Ei H; [|eauto]. injection H as <- <-. split; [reflexivity|]. apply (Imem _ _ _ Ei).
      + intros j d r' H. upd Ei H; [discriminate|eauto].
      + intros r'. rewrite (nth_list_set _ _ _ _ _ Lr). unfold logs'. destruct (Nat.eqb_spec r' r) as [->|]; [|apply Icont]. rewrite Icont, map_app, app_assoc. reflexivity.
      + intros r' H. rewrite list_set_length in H. unfold logs'. destruct (Nat.eqb_spec r' r) as [->|]; [lia|apply Ifresh, H].
      + intros r'. unfold logs'. destruct (Nat.eqb_spec r' r) as [->|]; [|apply Inodup]. rewrite map_app. apply (Permutation_NoDup (Permutation_app_comm [i] _)). constructor; [|apply Inodup].
        intros H. apply in_map_iff in H as ([j d] & Hj & H). cbn in Hj. subst j. destruct (Ilogs _ _ _ H). congruence.
      + intros r' j d H. assert (Q : (j = i /\ d = c /\ r' = r) \/ In (j, d) (logs r')).
        { unfold logs' in H. destruct (Nat.eqb_spec r' r) as [->|]; [|right; exact H]. apply in_app_iff in H as [H|[H|[]]]; [right; exact H|]. injection H as <- <-. left. auto. }
        rewrite (set_nth_at _ _ _ _ _ Ei). destruct Q as [(-> & -> & ->)|Q].
        * rewrite Nat.eqb_refl. split; [reflexivity|]. apply (Iapp _ _ _ Ei).
        * destruct (Ilogs r' j d Q) as [H1 H2]. split; [|exact H2]. destruct (Nat.eqb_spec j i) as [->|]; [congruence|exact H1].
      + intros k r' H1 H2. destruct (Ilive k r' H1 H2) as [H|(j & d & Hk & H)].
        * left. intros E. apply H. destruct (logs r') as [|x l] eqn:El; [reflexivity|]. exfalso. apply (in_nil (a := x)). rewrite <- E. apply Lin. rewrite El. left. reflexivity.
        * destruct (Nat.eq_dec j i) as [->|Hn].
          -- destruct H as [H|H]; [congruence|]. rewrite Ei in H. injection H as <- <-. left. intros E. apply (in_nil (a := (i, c))). rewrite <- E. exact Lnew.
          -- right. exists j, d. split; [exact Hk|]. rewrite (set_nth_at _ _ _ _ _ Ei). destruct (Nat.eqb_spec j i); [contradiction|exact H].
      + intros k Hk. destruct (Ifirst k Hk) as [H1 H2]. split; [exact H1|]. intros j d H. upd Ei H; [discriminate|eauto].
      + intros k Hs. destruct (Isafe k Hs) as (S1 & S2 & S3). split; [|split].
        * destruct S1 as [[Q1 Q2]|Q]; [left|right; exact Q]. split; [exact Q1|]. intros j d H. upd Ei H; [discriminate|eauto].
        * intros j d r' H Hk. upd Ei H; [discriminate|eauto].
        * intros j d r' H Hk. upd Ei H; [|destruct (S3 _ _ _ H Hk) as (q & Hq & Hin); exists q; auto]. injection H as <- <-. exists r. split; [eapply S2; eassumption|exact Lnew].
    - (* done *)
      exists owners, logs. split; [|auto].
      assert (Et : forall j, nth_error (list_set i (AT_done c r) th) j = nth_error th j). { intros j. rewrite (set_nth_at _ _ _ _ _ Ei). destruct (Nat.eqb_spec j i) as [->|]; [symmetry; exact Ei|reflexivity]. }
      apply nth_error_ext in Et. rewrite Et. split; cbn [fst snd lx_lists lx_data]; assumption.
  Qed.

  Lemma at_inv_run schedule : exists owners logs, at_inv owners logs (run_threads (at_step keqb) (lx_of l0, map AT_test calls) schedule).
  Proof.
    apply (run_invariant (at_step keqb) (fun st => exists owners logs, at_inv owners logs st)).
    - intros st i (owners & logs & H). destruct (at_inv_step _ _ _ i H) as (o & l & H' & _). exists o, l. exact H'.
    - do 2 eexists. apply at_inv_start.
  Qed.
End Facts.
