(** * PropLazy: C48, C49, lazily computed attributes *)
From Coq Require Import Lia.
From Verif Require Import PyBase Relations Restrictions Logic Data Words Lazy PyBaseFacts SpecProps PropsFacts SpecSlots SlotFacts LookupFacts WordFacts SpecIntegers PropSlots PropWords PropIntegers.

Section History.
  Context {O V : Type} (func : O -> result V).
  Notation op := (lazy_op O).
  (** the state of the object after the operations of a history: only mutations count *)
  Definition state_after (o : O) (ops : list op) : O :=
    fold_left (fun s x => match x with LMutate f => f s | _ => s end) ops o.
  Definition not_get (x : op) : Prop := match x with LGet => False | _ => True end.
  Definition not_del (x : op) : Prop := match x with LDel => False | _ => True end.
  Definition reads (ops : list op) : nat := length (filter (fun x => match x with LGet => true | _ => false end) ops).
  Definition run (o : O) (ops : list op) := lazy_run func (new_obj o) ops.

  Lemma run_app x a b : lazy_run func x (a ++ b) =
    let (x', r) := lazy_run func x a in let (x'', r') := lazy_run func x' b in (x'', r ++ r').
  Proof.
    revert x. induction a as [|op a IH]; intros x; cbn [lazy_run app]; [destruct (lazy_run func x b); reflexivity|].
    destruct (lazy_step func x op) as [x1 r1]. rewrite IH. destruct (lazy_run func x1 a) as [x2 r2]. destruct (lazy_run func x2 b) as [x3 r3]. destruct r1; reflexivity.
  Qed.
  Lemma run_state ops : forall x, lo_state (fst (lazy_run func x ops)) = state_after (lo_state x) ops.
  Proof.
    induction ops as [|op ops IH]; intros x; cbn [lazy_run]; [reflexivity|]. destruct (lazy_step func x op) as [x1 r1] eqn:E.
    specialize (IH x1). destruct (lazy_run func x1 ops) as [x2 r2]. cbn [fst] in *. rewrite IH. unfold state_after. cbn [fold_left]. f_equal.
    destruct op; cbn [lazy_step] in E.
    - unfold lazy_get in E. destruct (lo_attr x); [|destruct (func (lo_state x))]; injection E as <- _; reflexivity.
    - injection E as <- _. reflexivity.
    - injection E as <- _. reflexivity.
  Qed.
  Lemma run_quiet ops : Forall not_get ops -> forall x, snd (lazy_run func x ops) = [] /\ lo_calls (fst (lazy_run func x ops)) = lo_calls x /\ (lo_attr x = None -> lo_attr (fst (lazy_run func x ops)) = None).
  Proof.
    induction 1 as [|op ops Hop _ IH]; intros x; [auto|]. cbn [lazy_run]. destruct op as [| |f]; [destruct Hop|..]; cbn [lazy_step].
    - specialize (IH (lazy_del x)). destruct (lazy_run func (lazy_del x) ops) as [x2 r2]. cbn [fst snd] in *. destruct IH as (A & B & C). repeat split; auto.
    - specialize (IH (lazy_mutate f x)). destruct (lazy_run func (lazy_mutate f x) ops) as [x2 r2]. cbn [fst snd] in *. destruct IH as (A & B & C). repeat split; auto.
  Qed.
  Lemma run_cached ops v : Forall not_del ops -> forall x, lo_attr x = Some v ->
    snd (lazy_run func x ops) = repeat (Ok v) (reads ops) /\ lo_calls (fst (lazy_run func x ops)) = lo_calls x /\ lo_attr (fst (lazy_run func x ops)) = Some v.
  Proof.
    induction 1 as [|op ops Hop _ IH]; intros x Hx; [auto|]. cbn [lazy_run]. destruct op as [| |f]; [|destruct Hop|]; cbn [lazy_step].
    - unfold lazy_get. rewrite Hx. destruct (IH x Hx) as (A & B & C). destruct (lazy_run func x ops) as [x2 r2]. cbn [fst snd] in *. rewrite A. auto.
    - destruct (IH (lazy_mutate f x) Hx) as (A & B & C). destruct (lazy_run func (lazy_mutate f x) ops) as [x2 r2]. cbn [fst snd] in *. auto.
  Qed.
  Lemma run_reset o pre : pre = [] \/ (exists p, pre = p ++ [LDel]) -> lo_attr (fst (run o pre)) = None.
  Proof.
    intros [->|[p ->]]; [reflexivity|]. unfold run. rewrite run_app. destruct (lazy_run func (new_obj o) p) as [x r]. reflexivity.
  Qed.

  (** Between resets the property has the value computed at the first read: after a history [pre] that is empty or ends with a
      deletion, and any operations [mid] other than reads, the value computed for the object as it is then is what this read
      and all later ones return until the next deletion, whatever is changed in between; the function is called once. *)
  Theorem C48_between_resets : forall o pre mid later v,
    pre = [] \/ (exists p, pre = p ++ [LDel]) -> Forall not_get mid -> Forall not_del later ->
    func (state_after o (pre ++ mid)) = Ok v ->
    snd (run o (pre ++ mid ++ LGet :: later)) = snd (run o pre) ++ repeat (Ok v) (S (reads later)) /\
    lo_calls (fst (run o (pre ++ mid ++ LGet :: later))) = S (lo_calls (fst (run o pre))).
  Proof.
    intros o pre mid later v Hpre Hm Hl Hv. assert (Ha := run_reset o pre Hpre). unfold run in *. rewrite run_app.
    assert (Hs := run_state pre (new_obj o)). destruct (lazy_run func (new_obj o) pre) as [x r]. cbn [fst snd lo_state new_obj] in *.
    rewrite run_app. destruct (run_quiet mid Hm x) as (Q1 & Q2 & Q3). assert (Hs' := run_state mid x). specialize (Q3 Ha). destruct (lazy_run func x mid) as [y r']. cbn [fst snd] in *. subst r'.
    cbn [lazy_run lazy_step]. unfold lazy_get. rewrite Q3, Hs', Hs. unfold state_after in Hv |- *. rewrite fold_left_app in Hv. rewrite Hv.
    match goal with |- context [lazy_run func ?z later] => destruct (run_cached later v Hl z eq_refl) as (A & B & _); destruct (lazy_run func z later) as [y2 r2]; cbn [fst snd lo_calls] in * end.
    rewrite A, B, Q2. auto.
  Qed.
  (** a failed computation is not remembered: the next read computes again *)
  Theorem C48_errors_not_cached : forall o pre mid e rest,
    pre = [] \/ (exists p, pre = p ++ [LDel]) -> Forall not_get mid -> func (state_after o (pre ++ mid)) = Err e ->
    snd (run o (pre ++ mid ++ LGet :: rest)) = snd (run o pre) ++ Err e :: snd (run (state_after o (pre ++ mid)) rest).
  Proof.
    assert (Calls : forall ops x y, lo_state x = lo_state y -> lo_attr x = lo_attr y -> snd (lazy_run func x ops) = snd (lazy_run func y ops)).
    { induction ops as [|op ops IH]; intros x y E1 E2; [reflexivity|]. cbn [lazy_run].
      assert (S : exists x1 y1 r1, lazy_step func x op = (x1, r1) /\ lazy_step func y op = (y1, r1) /\ lo_state x1 = lo_state y1 /\ lo_attr x1 = lo_attr y1).
      { destruct op as [| |f]; cbn [lazy_step]; [|do 3 eexists; (split; [reflexivity|split; [reflexivity|split; cbn; congruence]])|do 3 eexists; (split; [reflexivity|split; [reflexivity|split; cbn; congruence]])].
        unfold lazy_get. rewrite <- E1, <- E2. destruct (lo_attr x) eqn:Ea; [do 3 eexists; (split; [reflexivity|split; [reflexivity|split; cbn; congruence]])|].
        destruct (func (lo_state x)); do 3 eexists; (split; [reflexivity|split; [reflexivity|split; cbn; congruence]]). }
      destruct S as (x1 & y1 & r1 & S1 & S2 & S3 & S4). rewrite S1, S2. specialize (IH x1 y1 S3 S4). destruct (lazy_run func x1 ops), (lazy_run func y1 ops). cbn [snd] in *. rewrite IH. reflexivity. }
    intros o pre mid e rest Hpre Hm Hv. assert (Ha := run_reset o pre Hpre). unfold run in *. rewrite run_app.
    assert (Hs := run_state pre (new_obj o)). destruct (lazy_run func (new_obj o) pre) as [x r]. cbn [fst snd lo_state new_obj] in *.
    rewrite run_app. destruct (run_quiet mid Hm x) as (Q1 & Q2 & Q3). assert (Hs' := run_state mid x). specialize (Q3 Ha). destruct (lazy_run func x mid) as [y r']. cbn [fst snd] in *. subst r'.
    cbn [lazy_run lazy_step]. unfold lazy_get. rewrite Q3, Hs', Hs.
    assert (Es : state_after (state_after o pre) mid = state_after o (pre ++ mid)) by (unfold state_after; rewrite fold_left_app; reflexivity). rewrite Es, Hv.
    match goal with |- context [lazy_run func ?z rest] => assert (A := Calls rest z (new_obj (state_after o (pre ++ mid))) eq_refl eq_refl); destruct (lazy_run func z rest) as [y2 r2]; cbn [fst snd] in * end.
    rewrite A. reflexivity.
  Qed.
  (** if no mutation changes the function's value, reading always equals computing *)
  Theorem C48_unchanged : forall o ops, (forall f s, In (LMutate f) ops -> func (f s) = func s) ->
    snd (run o ops) = repeat (func o) (reads ops).
  Proof.
    intros o ops. unfold run.
    assert (G : forall x, (lo_attr x = None \/ exists v, lo_attr x = Some v /\ func o = Ok v) -> func (lo_state x) = func o -> (forall f s, In (LMutate f) ops -> func (f s) = func s) ->
      snd (lazy_run func x ops) = repeat (func o) (reads ops)).
    { induction ops as [|op ops IH]; intros x Hx Hs Hm; [reflexivity|]. cbn [lazy_run].
      assert (Hm' : forall f s, In (LMutate f) ops -> func (f s) = func s) by (intros f s Hf; apply Hm; right; exact Hf).
      destruct op as [| |f]; cbn [lazy_step].
      - unfold lazy_get. destruct Hx as [Hx|(v & Hx & Hv)]; rewrite Hx.
        + rewrite Hs. destruct (func o) as [v|e] eqn:Ef.
          * match goal with |- context [lazy_run func ?z ops] => specialize (IH z (or_intror (ex_intro _ v (conj eq_refl eq_refl))) Hs Hm'); destruct (lazy_run func z ops) as [y r]; cbn [snd] in * end. rewrite IH. reflexivity.
          * match goal with |- context [lazy_run func ?z ops] => specialize (IH z (or_introl eq_refl) Hs Hm'); destruct (lazy_run func z ops) as [y r]; cbn [snd] in * end. rewrite IH. reflexivity.
        + specialize (IH x (or_intror (ex_intro _ v (conj Hx Hv))) Hs Hm'). destruct (lazy_run func x ops) as [y r]. cbn [snd] in *. rewrite IH, <- Hv. reflexivity.
      - match goal with |- context [lazy_run func ?z ops] => specialize (IH z (or_introl eq_refl) Hs Hm'); destruct (lazy_run func z ops) as [y r]; cbn [snd] in * end. rewrite IH. reflexivity.
      - match goal with |- context [lazy_run func ?z ops] => specialize (IH z Hx); destruct (lazy_run func z ops) as [y r]; cbn [snd lo_state lazy_mutate] in * end. rewrite IH; [reflexivity| |exact Hm'].
        rewrite Hm by (left; reflexivity). exact Hs. }
    intros Hm. apply G; auto.
  Qed.
End History.

(** ** the two lazy properties of words *)
(** autofill_missed_forms does not change them when the first form is given ... *)
Theorem C48_autofill_harmless : forall w w', is_word w -> nth_error (w_forms w) 0 <> Some [] -> autofill_missed_forms w = Ok w' ->
  number_of_syllables w' = number_of_syllables w /\ has_fluent_vowel w' = has_fluent_vowel w.
Proof.
  intros w w' Hw Hne E. destruct (C17_keeps w Hw) as (w1 & E1 & Hw' & Ht & Hp & Hl & Hk). rewrite E in E1. injection E1 as <-.
  destruct (C55_defined w Hw) as (f & rest & Ef). assert (Hf : f <> []) by (intros ->; apply Hne; rewrite Ef; reflexivity).
  assert (H0 : nth_error (w_forms w') 0 = Some f) by (apply Hk; [rewrite Ef; reflexivity|exact Hf]).
  destruct (w_forms w') as [|f' rest'] eqn:Ef'; [discriminate|]. injection H0 as ->. unfold number_of_syllables, number_of_syllables_of. rewrite Ef, Ef'. split; [reflexivity|].
  destruct (C55_has_fluent_vowel w f rest Ef) as (b & Hb & Ib), (C55_has_fluent_vowel w' f rest' Ef') as (b' & Hb' & Ib'). rewrite Hb, Hb'. f_equal.
  assert (Iff : b' = true <-> b = true).
  { rewrite Ib, Ib'. split; intros (g & Hg & G1 & G2).
    - apply In_nth_error in Hg as [i Hi]. destruct (nth_error (w_forms w) (S i)) as [h|] eqn:Eh.
      2:{ exfalso. assert (L : S i < length (f :: rest')) by (cbn [length]; apply -> Nat.succ_lt_mono; apply nth_error_Some; congruence). rewrite Hl in L. apply nth_error_Some in L. congruence. }
      destruct h as [|c h].
      + destruct (slot_exists (w_type w) (S i)) as [k Hk']; [rewrite <- (word_forms_length w Hw); apply nth_error_Some; congruence|].
        destruct (C17_source w w' (S i) k Hw E Hk' Eh) as (j & kj & g' & _ & Gj & Gne & Gi & _); [exists 0, f; split; [rewrite Ef; reflexivity|exact Hf]|].
        rewrite Ef' in Gi. cbn [nth_error] in Gi. rewrite Hi in Gi. injection Gi as <-. rewrite Ef in Gj. destruct j as [|j].
        * injection Gj as <-. exfalso. apply G2. exists []. rewrite app_nil_r. reflexivity.
        * exists g. split; [exact (nth_error_In rest j Gj)|auto].
      + assert (X := Hk (S i) (c :: h) Eh ltac:(discriminate)). cbn [nth_error] in X. rewrite Hi in X. injection X as ->. rewrite Ef in Eh. exists (c :: h). split; [exact (nth_error_In rest i Eh)|auto].
    - apply In_nth_error in Hg as [i Hi]. exists g. split; [|auto]. apply (nth_error_In rest' i). apply (Hk (S i) g); [rewrite Ef; exact Hi|exact G1]. }
  destruct b, b'; try reflexivity; [apply Iff; reflexivity|symmetry; apply Iff; reflexivity].
Qed.
(** ... but if it is missing the values read before stay, although computing again would give others *)
Definition headless : word := {| w_type := WT_NOUN;
  w_forms := [[]; u "монеты"; u "монете"; u "монету"; []; []; []; []; []; []; []; []; []; []; []; []; []; []]; w_props := [] |}.
Definition fill (w : word) : word := match autofill_missed_forms w with Ok w' => w' | Err _ => w end.
Theorem C48_stale_after_autofill : is_word headless /\
  snd (run number_of_syllables headless [LGet; LMutate fill; LGet]) = [Ok 1; Ok 1] /\ number_of_syllables (fill headless) = Ok 3 /\
  snd (run number_of_syllables headless [LGet; LMutate fill; LDel; LGet]) = [Ok 1; Ok 3] /\
  snd (run has_fluent_vowel headless [LGet; LMutate fill; LGet]) = [Ok false; Ok false] /\ has_fluent_vowel (fill headless) = Ok true.
Proof.
  split; [apply is_word_iff; split; [apply wf_is_properties, wf_nil|vm_compute; reflexivity]|]. vm_compute. auto 10.
Qed.
Example C48_case : Forall not_get [LDel; LMutate fill] /\ Forall not_del [LMutate fill; LGet; LGet] /\
  number_of_syllables (state_after headless ([] ++ [LDel; LMutate fill])) = Ok 3 /\ nth_error (w_forms gappy) 0 <> Some [].
Proof. split; [repeat constructor|]. split; [repeat constructor|]. split; [vm_compute; reflexivity|discriminate]. Qed.

(** ** C49: threads *)
Section Threads.
  Context {O V : Type} (func : O -> result V).
  Notation pc := (lz_pc V).
  Definition is_reader (p : pc) : Prop := p = G_hasattr.
  Definition is_deleter (p : pc) : Prop := p = D_hasattr.
  (** the attribute as earlier complete reads and deletions left it *)
  Definition settled (o : O) (attr : option V) : Prop := attr = None \/ exists v, attr = Some v /\ func o = Ok v.
  Definition deleting (p : pc) : bool := match p with D_hasattr | D_delattr | D_done _ => true | _ => false end.
  (** steps still to make, at most *)
  Definition left (p : pc) : nat := match p with G_hasattr => 4 | G_compute => 3 | G_setattr _ => 2 | G_getattr => 1 | D_hasattr => 2 | D_delattr => 1 | G_done _ | D_done _ => 0 end.
  Definition attr_ok (o : O) (attr : option V) : Prop := forall v, attr = Some v -> func o = Ok v.
  (** what holds of a thread in any mix *)
  Definition pc_ok (o : O) (p : pc) : Prop :=
    match p with
    | G_setattr v => func o = Ok v
    | G_getattr => exists v, func o = Ok v
    | G_done r => r = func o \/ (r = Err AttributeError /\ exists v, func o = Ok v)
    | D_done r => r = Ok tt \/ r = Err AttributeError
    | _ => True
    end.
  Lemma lz_step_ok o attr p : attr_ok o attr -> pc_ok o p ->
    attr_ok o (fst (lz_step func o attr p)) /\ pc_ok o (snd (lz_step func o attr p)) /\ deleting (snd (lz_step func o attr p)) = deleting p /\ left (snd (lz_step func o attr p)) <= pred (left p).
  Proof.
    intros Ha Hp. destruct p as [| |v| |r| | |r]; cbn [lz_step fst snd pc_ok] in *.
    - split; [exact Ha|]. destruct attr as [v|]; cbn; [split; [exists v; apply Ha; reflexivity|auto]|auto].
    - split; [exact Ha|]. destruct (func o) as [v|e] eqn:E; cbn; [repeat split; auto|]. split; [left; symmetry; exact E|auto].
    - split; [intros w [= <-]; exact Hp|]. cbn. split; [exists v; exact Hp|auto].
    - split; [exact Ha|]. cbn. split; [|auto]. destruct attr as [v|]; [left; symmetry; apply Ha; reflexivity|right; auto].
    - auto.
    - split; [exact Ha|]. destruct attr; cbn; auto.
    - destruct attr; cbn; split; auto; intros w [=].
    - auto.
  Qed.
  Definition st_ok (o : O) (start : list pc) (bound : nat -> nat) (st : option V * list pc) : Prop :=
    attr_ok o (fst st) /\ map deleting (snd st) = map deleting start /\ forall i p, nth_error (snd st) i = Some p -> pc_ok o p /\ left p <= bound i.
  Lemma lz_step_at_ok o start bound st j : st_ok o start bound st -> st_ok o start (fun i => if Nat.eqb i j then pred (bound i) else bound i) (lz_step_at func o st j).
  Proof.
    intros (Ha & Hd & Hp). unfold lz_step_at. destruct (nth_error (snd st) j) as [p|] eqn:Ej.
    - destruct (Hp j p Ej) as [Hp1 Hp2]. destruct (lz_step_ok o (fst st) p Ha Hp1) as (S1 & S2 & S3 & S4). destruct (lz_step func o (fst st) p) as [a' p']. cbn [fst snd] in *.
      split; [exact S1|]. split.
      + rewrite <- Hd. apply nth_error_ext. intros i. cbn [snd]. rewrite !nth_error_map, (list_set_nth_at _ _ _ _ _ Ej). destruct (Nat.eqb i j) eqn:E; [apply Nat.eqb_eq in E; subst i; rewrite Ej; cbn [option_map]; rewrite S3; reflexivity|reflexivity].
      + intros i q Hi. cbn [snd] in Hi. rewrite (list_set_nth_at _ _ _ _ _ Ej) in Hi. destruct (Nat.eqb i j) eqn:E.
        * apply Nat.eqb_eq in E. subst i. injection Hi as <-. split; [exact S2|lia].
        * apply Hp, Hi.
    - split; [exact Ha|]. split; [exact Hd|]. intros i p Hi. destruct (Hp i p Hi) as [A B]. split; [exact A|]. destruct (Nat.eqb i j) eqn:E; [|exact B]. apply Nat.eqb_eq in E. subst i. congruence.
  Qed.
  Lemma lz_run_ok o start sched : forall bound st, st_ok o start bound st -> st_ok o start (fun i => bound i - runs i sched) (lz_run func o st sched).
  Proof.
    induction sched as [|j sched IH]; intros bound st H.
    - destruct H as (A & B & C). split; [exact A|]. split; [exact B|]. intros i p Hi. destruct (C i p Hi). split; [assumption|unfold runs; cbn; lia].
    - change (lz_run func o st (j :: sched)) with (lz_run func o (lz_step_at func o st j) sched). destruct (IH _ _ (lz_step_at_ok o start bound st j H)) as (A & B & C).
      split; [exact A|]. split; [exact B|]. intros i p Hi. destruct (C i p Hi) as [C1 C2]. split; [exact C1|]. cbn beta in C2. unfold runs in *. cbn [count_occ]. destruct (Nat.eq_dec j i) as [->|Hne].
      + rewrite Nat.eqb_refl in C2. lia.
      + destruct (Nat.eqb i j) eqn:E; [apply Nat.eqb_eq in E; congruence|exact C2].
  Qed.
  Lemma start_ok o attr threads : settled o attr -> Forall (fun p => is_reader p \/ is_deleter p) threads -> st_ok o threads (fun _ => 4) (attr, threads).
  Proof.
    intros Hs Ht. split; [|split; [reflexivity|]].
    - intros v. destruct Hs as [->|(w & -> & Hw)]; [discriminate|]. intros [= <-]. exact Hw.
    - intros i p Hi. cbn [snd] in Hi. apply nth_error_In in Hi. rewrite Forall_forall in Ht. destruct (Ht p Hi) as [->| ->]; cbn; auto.
  Qed.
  Lemma reader_result o attr threads sched i p : settled o attr -> Forall (fun p => is_reader p \/ is_deleter p) threads -> nth_error (snd (lz_run func o (attr, threads) sched)) i = Some p ->
    exists q, nth_error threads i = Some q /\ deleting p = deleting q.
  Proof.
    intros Hs Ht Hi. destruct (lz_run_ok o threads sched _ _ (start_ok o attr threads Hs Ht)) as (_ & B & _). pose proof (f_equal (fun l => nth_error l i) B) as E. cbn beta in E.
    rewrite !nth_error_map, Hi in E. destruct (nth_error threads i) as [q|]; [|discriminate]. exists q. split; [reflexivity|]. cbn in E. congruence.
  Qed.

  (** only readers *)
  Lemma readers_attr o sched : forall st, attr_ok o (fst st) -> (forall i p, nth_error (snd st) i = Some p -> pc_ok o p /\ deleting p = false /\ (p = G_getattr -> fst st <> None) /\ (forall r, p = G_done r -> r = func o)) ->
    forall i r, nth_error (snd (lz_run func o st sched)) i = Some (G_done r) -> r = func o.
  Proof.
    induction sched as [|j sched IH]; intros st Ha Hp i r Hi; [exact (proj2 (proj2 (proj2 (Hp i _ Hi))) r eq_refl)|].
    change (lz_run func o st (j :: sched)) with (lz_run func o (lz_step_at func o st j) sched) in Hi. revert Hi. apply IH; unfold lz_step_at; destruct (nth_error (snd st) j) as [p|] eqn:Ej; try assumption.
    - destruct (Hp j p Ej) as [Hp1 _]. destruct (lz_step_ok o (fst st) p Ha Hp1) as (S1 & _). destruct (lz_step func o (fst st) p). exact S1.
    - destruct (Hp j p Ej) as (Hp1 & Hp2 & Hp3 & Hp4). destruct (lz_step_ok o (fst st) p Ha Hp1) as (S1 & S2 & S3 & _). 
      assert (Keep : fst st <> None -> fst (lz_step func o (fst st) p) <> None) by (destruct p; cbn [lz_step fst] in *; try discriminate Hp2; auto; discriminate).
      assert (New : (snd (lz_step func o (fst st) p) = G_getattr -> fst (lz_step func o (fst st) p) <> None) /\ (forall r', snd (lz_step func o (fst st) p) = G_done r' -> r' = func o)).
      { destruct p as [| |v| |r'| | |r']; cbn [lz_step fst snd] in *; try discriminate Hp2.
        - destruct (fst st); split; congruence.
        - destruct (func o); split; congruence.
        - split; congruence.
        - destruct (fst st) as [v|] eqn:Ev; [|destruct (Hp3 eq_refl eq_refl)]. split; [congruence|]. intros r' [= <-]. symmetry. apply Ha. reflexivity.
        - split; [congruence|]. intros r'' [= <-]. auto. }
      destruct (lz_step func o (fst st) p) as [a' p']. cbn [fst snd] in *. intros k q Hk. rewrite (list_set_nth_at _ _ _ _ _ Ej) in Hk. destruct (Nat.eqb k j) eqn:E.
      + injection Hk as <-. split; [exact S2|]. split; [congruence|]. exact New.
      + destruct (Hp k q Hk) as (A & B & C & D). repeat split; auto.
  Qed.
  (** any number of readers, any interleaving: a finished read returned the function's value *)
  Theorem C49_readers : forall o attr threads schedule i r, settled o attr -> Forall is_reader threads ->
    nth_error (snd (lz_run func o (attr, threads) schedule)) i = Some (G_done r) -> r = func o.
  Proof.
    intros o attr threads sched i r Hs Ht. apply readers_attr.
    - intros v. destruct Hs as [->|(w & -> & Hw)]; [discriminate|]. intros [= <-]. exact Hw.
    - intros j p Hj. cbn [snd] in Hj. apply nth_error_In in Hj. rewrite Forall_forall in Ht. rewrite (Ht p Hj). cbn. repeat split; auto; discriminate.
  Qed.
  (** four steps of a thread finish its read or deletion, in any mix *)
  Theorem C49_progress : forall o attr threads schedule i, settled o attr -> Forall (fun p => is_reader p \/ is_deleter p) threads -> 4 <= runs i schedule -> i < length threads ->
    exists p, nth_error (snd (lz_run func o (attr, threads) schedule)) i = Some p /\ ((exists r, p = G_done r) \/ (exists r, p = D_done r)).
  Proof.
    intros o attr threads sched i Hs Ht Hr Hi. destruct (lz_run_ok o threads sched _ _ (start_ok o attr threads Hs Ht)) as (_ & B & C).
    destruct (nth_error (snd (lz_run func o (attr, threads) sched)) i) as [p|] eqn:E.
    - exists p. split; [reflexivity|]. destruct (C i p E) as [_ L]. cbn beta in L. destruct p as [| |v| |r| | |r]; cbn [left] in L; try lia; eauto.
    - exfalso. apply nth_error_None in E. apply (f_equal (@length _)) in B. rewrite !map_length in B. lia.
  Qed.
  (** with deletions among them, the only other outcome of a read is AttributeError *)
  Theorem C49_with_deletions : forall o attr threads schedule i p, settled o attr -> Forall (fun p => is_reader p \/ is_deleter p) threads ->
    nth_error (snd (lz_run func o (attr, threads) schedule)) i = Some p ->
    (forall r, p = G_done r -> r = func o \/ r = Err AttributeError) /\ (forall r, p = D_done r -> r = Ok tt \/ r = Err AttributeError).
  Proof.
    intros o attr threads sched i p Hs Ht Hi. destruct (lz_run_ok o threads sched _ _ (start_ok o attr threads Hs Ht)) as (_ & B & C). destruct (C i p Hi) as [P _].
    split; intros r ->; cbn [pc_ok] in P; [destruct P as [->|[-> _]]; auto|exact P].
  Qed.
  (** and it happens: a deletion between the test and the read, or two deletions at once *)
  Theorem C49_deletion_race_refuted : forall o v, func o = Ok v ->
    (exists schedule, nth_error (snd (lz_run func o (Some v, [G_hasattr; D_hasattr]) schedule)) 0 = Some (G_done (Err AttributeError))) /\
    (exists schedule, nth_error (snd (lz_run func o (None, [G_hasattr; D_hasattr]) schedule)) 0 = Some (G_done (Err AttributeError))) /\
    (exists schedule, nth_error (snd (lz_run func o (Some v, [D_hasattr; D_hasattr]) schedule)) 1 = Some (D_done (Err AttributeError))).
  Proof.
    intros o v E. split; [exists [0; 1; 1; 0]; reflexivity|]. split; [exists [0; 0; 0; 1; 1; 0]; cbn; rewrite E; reflexivity|]. exists [0; 1; 0; 1]. reflexivity.
  Qed.
  (** a single deleter never fails *)
  Theorem C49_single_deleter : forall o attr threads schedule i r, settled o attr -> Forall (fun p => is_reader p \/ is_deleter p) threads ->
    (forall j k, nth_error threads j = Some D_hasattr -> nth_error threads k = Some D_hasattr -> j = k) ->
    nth_error (snd (lz_run func o (attr, threads) schedule)) i = Some (D_done r) -> r = Ok tt.
  Proof.
    intros o attr threads sched i r Hs Ht Hone.
    assert (G : forall st, map deleting (snd st) = map deleting threads ->
      (forall j p, nth_error (snd st) j = Some p -> (p = D_delattr -> fst st <> None) /\ (forall r', p = D_done r' -> r' = Ok tt)) ->
      nth_error (snd (lz_run func o st sched)) i = Some (D_done r) -> r = Ok tt).
    { induction sched as [|j sched IH]; intros st Hd Hp Hi; [exact (proj2 (Hp i _ Hi) r eq_refl)|].
      assert (Uniq : forall a b p q, nth_error (snd st) a = Some p -> nth_error (snd st) b = Some q -> deleting p = true -> deleting q = true -> a = b).
      { intros a b p q Ea Eb Da Db.
        assert (T : forall c x, nth_error (snd st) c = Some x -> deleting x = true -> nth_error threads c = Some D_hasattr).
        { intros c x Ec Dx. pose proof (f_equal (fun l => nth_error l c) Hd) as E. cbn beta in E. rewrite !nth_error_map, Ec in E. destruct (nth_error threads c) as [y|] eqn:Ey; [|discriminate].
          cbn in E. injection E as E. apply nth_error_In in Ey. rewrite Forall_forall in Ht. destruct (Ht y Ey) as [->| ->]; [cbn in E; congruence|reflexivity]. }
        apply Hone; [exact (T a p Ea Da)|exact (T b q Eb Db)]. }
      change (lz_run func o st (j :: sched)) with (lz_run func o (lz_step_at func o st j) sched) in Hi. revert Hi. apply IH; unfold lz_step_at; destruct (nth_error (snd st) j) as [p|] eqn:Ej; try assumption.
      - assert (S3 : deleting (snd (lz_step func o (fst st) p)) = deleting p) by (destruct p; cbn; try destruct (func o); try destruct (fst st); reflexivity).
        destruct (lz_step func o (fst st) p) as [a' p']. cbn [snd] in *. rewrite <- Hd. apply nth_error_ext. intros k. rewrite !nth_error_map, (list_set_nth_at _ _ _ _ _ Ej).
        destruct (Nat.eqb k j) eqn:E; [apply Nat.eqb_eq in E; subst k; rewrite Ej; cbn [option_map]; rewrite S3; reflexivity|reflexivity].
      - destruct (Hp j p Ej) as [P1 P2].
        assert (New : (snd (lz_step func o (fst st) p) = D_delattr -> fst (lz_step func o (fst st) p) <> None) /\ (forall r', snd (lz_step func o (fst st) p) = D_done r' -> r' = Ok tt)).
        { destruct p as [| |v| |r'| | |r']; cbn [lz_step fst snd].
          - destruct (fst st); split; congruence.
          - destruct (func o); split; congruence.
          - split; congruence.
          - destruct (fst st); split; congruence.
          - split; congruence.
          - destruct (fst st); split; try congruence; intros r' [= <-]; reflexivity.
          - destruct (fst st); [split; [discriminate|intros r' [= <-]; reflexivity]|destruct (P1 eq_refl eq_refl)].
          - split; [discriminate|]. intros r'' [= <-]. apply P2. reflexivity. }
        assert (Keep : deleting p = false -> fst st <> None -> fst (lz_step func o (fst st) p) <> None) by (intros Dp; destruct p; cbn [lz_step fst] in *; try discriminate Dp; auto; discriminate).
        destruct (lz_step func o (fst st) p) as [a' p']. cbn [fst snd] in *. intros k q Hk. rewrite (list_set_nth_at _ _ _ _ _ Ej) in Hk. destruct (Nat.eqb k j) eqn:E; [injection Hk as <-; exact New|].
        destruct (Hp k q Hk) as [Q1 Q2]. split; [|exact Q2]. intros ->. apply Keep; [|apply Q1; reflexivity].
        destruct (deleting p) eqn:Dp; [|reflexivity]. apply Nat.eqb_neq in E. destruct (E (Uniq k j _ _ Hk Ej eq_refl Dp)). }
    apply G; [reflexivity|]. intros j p Hj. cbn [snd] in Hj. apply nth_error_In in Hj. rewrite Forall_forall in Ht. destruct (Ht p Hj) as [->| ->]; split; congruence.
  Qed.
End Threads.
(** three threads read the number of syllables of a fresh word: all compute it, all return it *)
Example C49_case : settled number_of_syllables coin None /\ Forall (@is_reader nat) [G_hasattr; G_hasattr; G_hasattr] /\
  snd (lz_run number_of_syllables coin (None, [G_hasattr; G_hasattr; G_hasattr]) [0; 1; 2; 0; 1; 2; 2; 2; 0; 1; 1; 0]) = [G_done (Ok 3); G_done (Ok 3); G_done (Ok 3)].
Proof. split; [left; reflexivity|]. split; [repeat constructor|]. vm_compute. reflexivity. Qed.
