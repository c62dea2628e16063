(** * PropIntegers: C45, C46, C47 *)
From Coq Require Import Lia.
From Verif Require Import PyBase Relations Restrictions Logic Data Words Constructors PyBaseFacts SpecProps PropsFacts IntFacts SerFacts LookupFacts WordFacts
  SpecAgreement SpecIntegers.
Local Open Scope Z_scope.

Definition integer_word (n : Z) : word := {| w_type := WT_INTEGER; w_forms := [str_of_Z n]; w_props := integer_properties n |}.
Lemma raw_ok n : construct_integer_raw n = Ok (WordForm (integer_word n) None None).
Proof. reflexivity. Qed.
Lemma integer_properties_ok n : is_properties (integer_properties n).
Proof.
  unfold integer_properties. repeat match goal with |- context [if ?b then _ else _] => destruct b end; apply Properties_ok; intros d [[=]|[[=]|[]]].
Qed.
Lemma integer_is_word n : is_word (integer_word n).
Proof. apply is_word_iff. split; [apply integer_properties_ok|]. vm_compute. reflexivity. Qed.
Lemma integer_is_wordform n : is_wordform (WordForm (integer_word n) None None).
Proof. exists (integer_word n), None, None. split; [apply integer_is_word|]. split; [discriminate|]. split; [discriminate|reflexivity]. Qed.

(** ** C47: the cache *)
Definition cache_ok (c : integer_cache) : Prop := c = None \/ build_integer_cache = Ok (match c with Some l => l | None => [] end).
Lemma build_spec : exists l, build_integer_cache = Ok l /\ forall n, in_cache_range n = true -> cache_index (Some l) n = construct_integer_raw n.
Proof.
  unfold build_integer_cache. generalize (eq_refl (Z.to_nat (CACHE_RIGHT - CACHE_LEFT + 1))). generalize (Z.to_nat (CACHE_RIGHT - CACHE_LEFT + 1)) at 1 3.
  intros k Hk. exists (map (fun i => WordForm (integer_word (Z.of_nat i + CACHE_LEFT)) None None) (seq 0 k)). split; [exact (mapM_map_ok _ _)|].
  intros n Hn. unfold in_cache_range in Hn. apply andb_true_iff in Hn as [H1 H2]. apply Z.leb_le in H1, H2. rewrite raw_ok.
  unfold CACHE_LEFT, CACHE_RIGHT in *. unfold cache_index. apply py_nth_ok. rewrite nth_error_map.
  assert (Hl : (Z.to_nat n < k)%nat) by lia. rewrite (nth_error_nth' (seq 0 k) 0%nat) by (rewrite seq_length; exact Hl). rewrite seq_nth by exact Hl. cbn [option_map plus].
  replace (Z.of_nat (Z.to_nat n) + 0) with n by lia. reflexivity.
Qed.
Lemma cache_ok_index c l n : c = Some l -> cache_ok c -> in_cache_range n = true -> cache_index c n = construct_integer_raw n.
Proof.
  intros -> [H|H] Hn; [discriminate|]. destruct build_spec as (l' & E & Hl). rewrite E in H. injection H as ->. apply Hl, Hn.
Qed.
Lemma construct_integer_ok c n : cache_ok c -> cache_ok (fst (construct_integer c n)) /\ snd (construct_integer c n) = construct_integer_raw n.
Proof.
  intros Hc. unfold construct_integer. destruct (in_cache_range n) eqn:En; [|auto]. destruct c as [l|].
  - split; [exact Hc|]. cbn [fst snd]. exact (cache_ok_index _ l n eq_refl Hc En).
  - destruct build_spec as (l & E & Hl). rewrite E. split; [right; exact E|]. cbn [fst snd]. apply Hl, En.
Qed.
Lemma after_calls_ok ns c : after_calls ns c -> cache_ok c.
Proof. induction 1 as [|ns c n _ IH]; [left; reflexivity|]. apply construct_integer_ok, IH. Qed.
Theorem C47_histories : forall calls cache n, after_calls calls cache ->
  snd (construct_integer cache n) = construct_integer_raw n /\ exists f, construct_integer_raw n = Ok f.
Proof. intros calls c n H. split; [apply construct_integer_ok, (after_calls_ok _ _ H)|]. rewrite raw_ok. eauto. Qed.

(** threads *)
Definition pc_number (pc : ci_pc) : Z := match pc with CI_start n | CI_test n | CI_build n | CI_store n _ | CI_load n | CI_done n _ => n end.
(** steps still to make, at most *)
Definition pc_left (pc : ci_pc) : nat := match pc with CI_start _ => 5 | CI_test _ => 4 | CI_build _ => 3 | CI_store _ _ => 2 | CI_load _ => 1 | CI_done _ _ => 0 end.
Definition pc_ok (c : integer_cache) (pc : ci_pc) : Prop :=
  match pc with
  | CI_start _ => True
  | CI_test n | CI_build n => in_cache_range n = true
  | CI_store n l => in_cache_range n = true /\ build_integer_cache = Ok l
  | CI_load n => in_cache_range n = true /\ c <> None
  | CI_done n r => r = construct_integer_raw n
  end.
Lemma ci_step_ok c pc : cache_ok c -> pc_ok c pc ->
  let st := ci_step c pc in cache_ok (fst st) /\ pc_ok (fst st) (snd st) /\ (c <> None -> fst st <> None) /\ pc_number (snd st) = pc_number pc /\ (pc_left (snd st) <= pred (pc_left pc))%nat.
Proof.
  intros Hc Hp. destruct pc as [n|n|n|n l|n|n r]; cbn [ci_step pc_ok] in *.
  - cbn [fst snd]. destruct (in_cache_range n) eqn:E; cbn [pc_ok pc_number pc_left pred]; repeat split; auto; lia.
  - cbn [fst snd]. destruct c as [l|]; cbn [pc_ok pc_number pc_left pred]; repeat split; auto; try lia. discriminate.
  - destruct build_spec as (l & E & _). rewrite E. cbn [fst snd pc_ok pc_number pc_left pred]. repeat split; auto.
  - destruct Hp as [Hn Hl]. cbn [fst snd pc_ok pc_number pc_left pred]. split; [right; exact Hl|]. repeat split; auto; discriminate.
  - destruct Hp as [Hn Hl]. cbn [fst snd pc_ok pc_number pc_left pred]. split; [exact Hc|]. repeat split; auto. destruct c as [l|]; [|congruence]. exact (cache_ok_index _ l n eq_refl Hc Hn).
  - cbn [fst snd pc_ok pc_number pc_left pred]. auto.
Qed.
Lemma pc_ok_mono c c' pc : (c <> None -> c' <> None) -> pc_ok c pc -> pc_ok c' pc.
Proof. intros H. destruct pc; cbn [pc_ok]; tauto. Qed.
Definition state_ok (ns : list Z) (left : nat -> nat) (st : integer_cache * list ci_pc) : Prop :=
  cache_ok (fst st) /\ map pc_number (snd st) = ns /\
  forall i pc, nth_error (snd st) i = Some pc -> pc_ok (fst st) pc /\ (pc_left pc <= left i)%nat.
Lemma list_set_nth_at {A} (l : list A) j x i a : nth_error l j = Some a -> nth_error (list_set j x l) i = if Nat.eqb i j then Some x else nth_error l i.
Proof.
  intros H. rewrite list_set_nth, (Nat.eqb_sym j i). destruct (Nat.eqb i j) eqn:E; [|reflexivity]. apply Nat.eqb_eq in E. subst i.
  assert (L : (j < length l)%nat) by (apply nth_error_Some; congruence). apply Nat.ltb_lt in L. rewrite L. reflexivity.
Qed.
Lemma ci_step_at_ok ns left st j : state_ok ns left st -> state_ok ns (fun i => if Nat.eqb i j then pred (left i) else left i) (ci_step_at st j).
Proof.
  intros (Hc & Hn & Hp). unfold ci_step_at. destruct (nth_error (snd st) j) as [pc|] eqn:Ej.
  - destruct (Hp j pc Ej) as [Hpc Hl]. pose proof (ci_step_ok (fst st) pc Hc Hpc) as H. cbn zeta in H. destruct (ci_step (fst st) pc) as [c' pc']. cbn [fst snd] in H.
    destruct H as (H1 & H2 & H3 & H4 & H5). unfold state_ok. cbn [fst snd]. split; [exact H1|]. split.
    + rewrite <- Hn. apply nth_error_ext. intros i. rewrite !nth_error_map, (list_set_nth_at _ _ _ _ _ Ej). destruct (Nat.eqb i j) eqn:E; [apply Nat.eqb_eq in E; subst i; rewrite Ej; cbn [option_map]; rewrite H4; reflexivity|reflexivity].
    + intros i p Hi. rewrite (list_set_nth_at _ _ _ _ _ Ej) in Hi. destruct (Nat.eqb i j) eqn:E.
      * apply Nat.eqb_eq in E. subst i. injection Hi as <-. split; [exact H2|lia].
      * destruct (Hp i p Hi) as [A B]. split; [exact (pc_ok_mono _ _ _ H3 A)|exact B].
  - split; [exact Hc|]. split; [exact Hn|]. intros i p Hi. destruct (Hp i p Hi) as [A B]. split; [exact A|]. destruct (Nat.eqb i j) eqn:E; [|exact B].
    apply Nat.eqb_eq in E. subst i. congruence.
Qed.
Lemma ci_run_ok ns sched : forall left st, state_ok ns left st -> state_ok ns (fun i => left i - runs i sched)%nat (ci_run st sched).
Proof.
  induction sched as [|j sched IH]; intros left st H.
  - unfold runs. cbn. destruct H as (A & B & C). split; [exact A|]. split; [exact B|]. intros i pc Hi. destruct (C i pc Hi). split; [assumption|lia].
  - change (ci_run st (j :: sched)) with (ci_run (ci_step_at st j) sched). destruct (IH _ _ (ci_step_at_ok ns left st j H)) as (A & B & C).
    split; [exact A|]. split; [exact B|]. intros i pc Hi. destruct (C i pc Hi) as [C1 C2]. split; [exact C1|]. cbn beta in C2. unfold runs in *. cbn [count_occ]. destruct (Nat.eq_dec j i) as [->|Hne].
    + rewrite Nat.eqb_refl in C2. lia.
    + destruct (Nat.eqb i j) eqn:E; [apply Nat.eqb_eq in E; congruence|exact C2].
Qed.
Lemma ci_start_ok c ns : cache_ok c -> state_ok ns (fun _ => 5%nat) (c, map CI_start ns).
Proof.
  intros Hc. split; [exact Hc|]. split; [cbn [fst snd]; rewrite map_map; cbn [pc_number]; apply map_id|]. intros i pc Hi. apply nth_error_In, in_map_iff in Hi as (n & <- & _). split; [exact I|]. cbn. lia.
Qed.
(** whatever the interleaving, a finished call has the result of the uncached constructor, *)
Theorem C47_schedules : forall calls cache ns schedule i n r, after_calls calls cache ->
  nth_error (snd (ci_run (cache, map CI_start ns) schedule)) i = Some (CI_done n r) ->
  nth_error ns i = Some n /\ r = construct_integer_raw n /\ exists f, r = Ok f.
Proof.
  intros calls c ns sched i n r Hc Hi. destruct (ci_run_ok ns sched _ _ (ci_start_ok c ns (after_calls_ok _ _ Hc))) as (_ & B & C).
  destruct (C i _ Hi) as [Hr _]. cbn [pc_ok] in Hr. subst r. split; [|split; [reflexivity|exists (WordForm (integer_word n) None None); apply raw_ok]]. rewrite <- B, nth_error_map, Hi. reflexivity.
Qed.
(** and a thread that got five steps has finished *)
Theorem C47_progress : forall calls cache ns schedule i n, after_calls calls cache -> nth_error ns i = Some n -> (5 <= runs i schedule)%nat ->
  nth_error (snd (ci_run (cache, map CI_start ns) schedule)) i = Some (CI_done n (construct_integer_raw n)).
Proof.
  intros calls c ns sched i n Hc Hn Hr. destruct (ci_run_ok ns sched _ _ (ci_start_ok c ns (after_calls_ok _ _ Hc))) as (_ & B & C).
  pose proof (f_equal (fun l => nth_error l i) B) as E. cbn beta in E. rewrite nth_error_map, Hn in E.
  destruct (nth_error (snd (ci_run (c, map CI_start ns) sched)) i) as [pc|] eqn:Ei; [|discriminate]. cbn in E. injection E as E.
  destruct (C i pc Ei) as [C1 C2]. cbn beta in C2. assert (C3 : pc_left pc = 0%nat) by lia. destruct pc as [m|m|m|m l|m|m r]; try discriminate C3. cbn [pc_ok pc_number] in C1, E. subst. reflexivity.
Qed.
(** two threads with the same empty cache: both build it, one after the other stores it *)
Example C47_case : nth_error (snd (ci_run (None, map CI_start [7; 20000; 7]) [0; 2; 0; 2; 0; 2; 0; 2; 2; 1; 0]%nat)) 0 = Some (CI_done 7 (construct_integer_raw 7)) /\
  after_calls [5] (fst (construct_integer None 5)).
Proof. split; [vm_compute; reflexivity|]. exact (one_more [] None 5 no_calls). Qed.

(** ** C45 *)
Theorem C45_classified : forall calls cache n, after_calls calls cache -> exists f form number,
  snd (construct_integer cache n) = Ok f /\ is_wordform f /\ w_type (wf_word f) = WT_INTEGER /\
  numeral (Z.abs n) form number /\ holds (wf_props f) R_INTEGER_FORM form /\ holds (wf_props f) R_NUMBER number.
Proof.
  intros calls c n Hc. destruct (C47_histories _ _ n Hc) as [-> _]. rewrite raw_ok. exists (WordForm (integer_word n) None None).
  change (wf_props (WordForm (integer_word n) None None)) with (integer_properties n).
  enough (exists form number, numeral (Z.abs n) form number /\ holds (integer_properties n) R_INTEGER_FORM form /\ holds (integer_properties n) R_NUMBER number) as (a & b & H1 & H2 & H3).
  { exists a, b. split; [reflexivity|]. split; [apply integer_is_wordform|]. auto. }
  unfold integer_properties. set (m := Z.abs n). assert (Hm : 0 <= m) by (unfold m; lia). clearbody m.
  assert (B := Z.mod_pos_bound m 10 ltac:(lia)).
  destruct (Z.eqb m 1000000 || Z.eqb m 1000000000)%bool eqn:E1.
  { apply orb_true_iff in E1 as [E|E]; apply Z.eqb_eq in E; do 2 eexists; (split; [apply num_million; auto|]); unfold holds; cbn; auto. }
  apply orb_false_iff in E1 as [E1 E1']. apply Z.eqb_neq in E1, E1'.
  destruct (Z.eqb m 1) eqn:E2. { apply Z.eqb_eq in E2. subst m. do 2 eexists. split; [apply num_one|]. unfold holds; cbn; auto. }
  apply Z.eqb_neq in E2.
  destruct (Z.eqb m 2 || Z.eqb m 3 || Z.eqb m 4)%bool eqn:E3.
  { apply orb_true_iff in E3 as [E3|E]; [apply orb_true_iff in E3 as [E|E]|]; apply Z.eqb_eq in E; do 2 eexists; (split; [apply num_few; lia|]); unfold holds; cbn; auto. }
  apply orb_false_iff in E3 as [E3 E3'']. apply orb_false_iff in E3 as [E3 E3']. apply Z.eqb_neq in E3, E3', E3''.
  assert (Ho : ordinary m) by (unfold ordinary; lia).
  destruct (Z.leb 10 (m mod 100) && Z.leb (m mod 100) 19)%bool eqn:E4.
  { apply andb_true_iff in E4 as [H1 H2]. apply Z.leb_le in H1, H2. do 2 eexists. split; [apply num_teens; [exact Ho|split; lia]|]. unfold holds; cbn; auto. }
  assert (Ht : ~ teens m). { unfold teens. apply andb_false_iff in E4 as [H|H]; apply Z.leb_gt in H; lia. }
  destruct (Z.eqb (m mod 10) 1) eqn:E5. { apply Z.eqb_eq in E5. do 2 eexists. split; [apply num_ends_1; auto|]. unfold holds; cbn; auto. }
  apply Z.eqb_neq in E5.
  destruct (Z.leb 2 (m mod 10) && Z.leb (m mod 10) 4)%bool eqn:E6.
  { apply andb_true_iff in E6 as [H1 H2]. apply Z.leb_le in H1, H2. do 2 eexists. split; [apply num_ends_234; auto|]. unfold holds; cbn; auto. }
  do 2 eexists. split; [apply num_other; auto; apply andb_false_iff in E6 as [H|H]; apply Z.leb_gt in H; lia|]. unfold holds; cbn; auto.
Qed.
(** the classes are disjoint *)
Theorem C45_unique : forall n form number form' number', numeral n form number -> numeral n form' number' -> form' = form /\ number' = number.
Proof.
  intros n a b a' b' H1 H2. destruct H1; inversion H2; subst; unfold ordinary in *; auto; exfalso; try lia; try tauto.
Qed.
Theorem C45_sign : forall n, numeral (Z.abs n) = numeral (Z.abs (- n)) /\ integer_properties (- n) = integer_properties n.
Proof. intros n. unfold integer_properties. rewrite Z.abs_opp. auto. Qed.
(** only the last two digits matter *)
Theorem C45_last_two_digits : forall n m form number, ordinary n -> ordinary m -> n mod 100 = m mod 100 -> numeral n form number -> numeral m form number.
Proof.
  intros n m a b Hn Hm E H.
  assert (E10 : n mod 10 = m mod 10).
  { rewrite (Z.div_mod n 100), (Z.div_mod m 100), E by lia. rewrite <- (Z.add_mod_idemp_l (100 * (n / 100)) _ 10), <- (Z.add_mod_idemp_l (100 * (m / 100)) _ 10) by lia.
    replace (100 * (n / 100)) with ((10 * (n / 100)) * 10) by lia. replace (100 * (m / 100)) with ((10 * (m / 100)) * 10) by lia. rewrite !Z.mod_mul by lia. reflexivity. }
  unfold ordinary in Hn. destruct H; try lia.
  - apply num_teens; [exact Hm|]. unfold teens in *. lia.
  - apply num_ends_1; [exact Hm| |lia]. unfold teens in *. lia.
  - apply num_ends_234; [exact Hm| |lia]. unfold teens in *. lia.
  - apply num_other; [exact Hm| |lia]. unfold teens in *. lia.
Qed.
Example C45_case : numeral 111 INTEGER_FORM_PLURAL NUMBER_PLURAL /\ numeral 1021 INTEGER_FORM_SINGULAR NUMBER_PLURAL /\ numeral 0 INTEGER_FORM_PLURAL NUMBER_PLURAL /\ after_calls [] None.
Proof.
  split; [apply num_teens; unfold ordinary, teens; try lia|]; [vm_compute; intuition discriminate|]. split; [apply num_ends_1; unfold ordinary, teens; try lia|]; [vm_compute; intuition congruence|reflexivity|].
  split; [apply num_other; unfold ordinary, teens; try lia|]; [vm_compute; intuition congruence|left; reflexivity|constructor].
Qed.

(** ** C46 *)
Theorem C46_text : forall U calls cache n f, after_calls calls cache -> snd (construct_integer cache n) = Ok f ->
  exists s, wf_form U f = Ok s /\ literal s n /\ canonical s.
Proof.
  intros U calls c n f Hc Hf. destruct (C47_histories _ _ n Hc) as [E _]. rewrite E, raw_ok in Hf. injection Hf as <-.
  exists (str_of_Z n). assert (Hw := integer_is_word n). assert (Hp := integer_properties_ok n).
  destruct (word__form_total (integer_word n) (integer_properties n) Hw Hp) as (s & Hs & Hin). cbn [integer_word w_forms] in Hin. destruct Hin as [<-|[]].
  split.
  { unfold wf_form. apply (get_form_spec U (integer_word n) (integer_properties n) _ Hp Hs). intros H. revert H. unfold integer_properties, holds.
    repeat match goal with |- context [if ?b then _ else _] => destruct b end; cbn; intuition discriminate. }
  split; [apply parse_int_literal, parse_int_str_of_Z|].
  destruct (str_of_Z_canonical n) as (x & ds & E1 & E2 & E3). exists (x :: ds). split; [discriminate|]. split; [exact E2|]. cbn [hd]. split; [intros H; destruct (E3 H); subst; reflexivity|].
  rewrite E1. destruct (Z.ltb_spec n 0); [|left; reflexivity]. right. split; [reflexivity|]. intros [= -> ->]. destruct (E3 eq_refl). lia.
Qed.
(** different integers have different texts *)
Theorem C46_distinct : forall U calls cache calls' cache' n m f g s, after_calls calls cache -> after_calls calls' cache' ->
  snd (construct_integer cache n) = Ok f -> snd (construct_integer cache' m) = Ok g -> wf_form U f = Ok s -> wf_form U g = Ok s -> n = m.
Proof.
  intros U k c k' c' n m f g s Hc Hc' Hf Hg Sf Sg. destruct (C46_text U k c n f Hc Hf) as (s1 & E1 & L1 & _), (C46_text U k' c' m g Hc' Hg) as (s2 & E2 & L2 & _).
  rewrite Sf in E1. rewrite Sg in E2. injection E1 as <-. injection E2 as <-. apply parse_int_literal in L1, L2. congruence.
Qed.
Example C46_case : exists f, snd (construct_integer None (-20507)) = Ok f /\ wf_form ru_unicode f = Ok (u "-20507").
Proof. eexists. split; [reflexivity|]. vm_compute. reflexivity. Qed.
