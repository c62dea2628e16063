(** * FloatFacts: the non-negative binary64 numbers are totally preordered and closed under the operations used *)
From Coq Require Import Lia ZArith Bool.
From Verif Require Import PyBase PyFloat.
Local Open Scope Z_scope.

Definition nn (x : spec_float) : Prop :=
  match x with S754_zero _ | S754_infinity false | S754_finite false _ _ => True | _ => False end.

(** ** closure *)
Lemma shr_1_nn r : 0 <= shr_m r -> 0 <= shr_m (shr_1 r).
Proof. destruct r as [m a b]. simpl. destruct m as [|[p|p|]|[p|p|]]; simpl; lia. Qed.
Lemma iter_shr_nn p : forall r, 0 <= shr_m r -> 0 <= shr_m (iter_pos shr_1 p r).
Proof. induction p as [p IH|p IH|]; intros r H; simpl; [apply IH, IH, shr_1_nn, H|apply IH, IH, H|apply shr_1_nn, H]. Qed.
Lemma shr_fexp_nn prec emax m e l : 0 <= m -> 0 <= shr_m (fst (shr_fexp prec emax m e l)).
Proof.
  intros H. unfold shr_fexp, shr.
  assert (H0 : 0 <= shr_m (shr_record_of_loc m l)) by (destruct l as [|[]]; exact H).
  destruct (fexp prec emax (Zdigits2 m + e) - e); simpl; try exact H0. apply iter_shr_nn, H0.
Qed.
Lemma round_nn m l : 0 <= m -> 0 <= round_nearest_even m l.
Proof. intros H. destruct l as [|[]]; simpl; try lia. destruct (Z.even m); lia. Qed.
Lemma round_aux_nn prec emax m e l : 0 <= m -> nn (binary_round_aux prec emax false m e l).
Proof.
  intros H. unfold binary_round_aux.
  destruct (shr_fexp prec emax m e l) as [r1 e1] eqn:E1.
  assert (H1 : 0 <= shr_m r1) by (rewrite <- (f_equal fst E1 : fst _ = r1); apply shr_fexp_nn, H).
  destruct (shr_fexp prec emax (round_nearest_even (shr_m r1) (loc_of_shr_record r1)) e1 loc_Exact) as [r2 e2] eqn:E2.
  assert (H2 : 0 <= shr_m r2).
  { rewrite <- (f_equal fst E2 : fst _ = r2). apply shr_fexp_nn, round_nn, H1. }
  destruct (shr_m r2); [exact I| |lia]. destruct (e2 <=? emax - prec); exact I.
Qed.
Lemma binary_round_nn prec emax m e : nn (binary_round prec emax false m e).
Proof. unfold binary_round. destruct (shl_align _ _ _). apply round_aux_nn. lia. Qed.
Lemma normalize_nn prec emax m e : 0 <= m -> nn (binary_normalize prec emax m e false).
Proof. intros H. unfold binary_normalize. destruct m; [exact I|apply binary_round_nn|lia]. Qed.
Lemma f_add_nn a b : nn a -> nn b -> nn (f_add a b).
Proof.
  intros Ha Hb. unfold f_add, SFadd.
  destruct a as [sa|[]| |[] ma ea], b as [sb|[]| |[] mb eb]; simpl in Ha, Hb; try contradiction; try exact I.
  - destruct (Bool.eqb sa sb); exact I.
  - apply normalize_nn. simpl. lia.
Qed.
Lemma f_of_Z_nn z : 0 <= z -> nn (f_of_Z z).
Proof. apply normalize_nn. Qed.
Lemma f_mul_0_01_nn b : nn b -> nn (f_mul f_0_01 b).
Proof.
  intros Hb. unfold f_mul, SFmul, f_0_01. destruct b as [sb|[]| |[] mb eb]; simpl in Hb; try contradiction; try exact I.
  apply round_aux_nn. lia.
Qed.

(** ** order *)
Definition rank (x : spec_float) : Z * (Z * Z) :=
  match x with
  | S754_finite _ m e => (1, (e, Zpos m))
  | S754_infinity _ => (2, (0, 0))
  | _ => (0, (0, 0))
  end.
Definition rank_lt (a b : Z * (Z * Z)) : Prop :=
  fst a < fst b \/ fst a = fst b /\ (fst (snd a) < fst (snd b) \/ fst (snd a) = fst (snd b) /\ snd (snd a) < snd (snd b)).
Lemma f_gt_rank a b : nn a -> nn b -> (f_gt a b = true <-> rank_lt (rank b) (rank a)).
Proof.
  intros Ha Hb. unfold f_gt, SFltb, rank_lt.
  destruct a as [sa|[]| |[] ma ea], b as [sb|[]| |[] mb eb]; simpl in Ha, Hb; try contradiction; cbn -[Z.lt];
    try (split; [discriminate|lia]); try (split; [intros _; lia|reflexivity]).
  destruct (Z.compare_spec eb ea) as [->|H|H].
  - change (Pcompare mb ma Eq) with (Pos.compare mb ma). destruct (Pos.compare_spec mb ma) as [->|H|H].
    + split; [discriminate|lia].
    + split; [intros _; lia|reflexivity].
    + split; [discriminate|lia].
  - split; [intros _; lia|reflexivity].
  - split; [discriminate|lia].
Qed.
Lemma f_gt_irrefl a : nn a -> f_gt a a = false.
Proof.
  intros H. destruct (f_gt a a) eqn:E; [|reflexivity]. apply f_gt_rank in E; [|exact H|exact H]. unfold rank_lt in E. lia.
Qed.
Lemma f_gt_trans a b c : nn a -> nn b -> nn c -> f_gt a b = true -> f_gt b c = true -> f_gt a c = true.
Proof. intros Ha Hb Hc. rewrite !f_gt_rank by assumption. unfold rank_lt. lia. Qed.
Lemma f_gt_neg_trans a b c : nn a -> nn b -> nn c -> f_gt a b = false -> f_gt b c = false -> f_gt a c = false.
Proof.
  intros Ha Hb Hc H1 H2. destruct (f_gt a c) eqn:E; [|reflexivity]. exfalso.
  apply f_gt_rank in E; [|assumption|assumption].
  assert (N1 : ~ rank_lt (rank b) (rank a)) by (rewrite <- f_gt_rank by assumption; congruence).
  assert (N2 : ~ rank_lt (rank c) (rank b)) by (rewrite <- f_gt_rank by assumption; congruence).
  unfold rank_lt in *. lia.
Qed.
Lemma f_gt_asym a b : nn a -> nn b -> f_gt a b = true -> f_gt b a = false.
Proof.
  intros Ha Hb H. destruct (f_gt b a) eqn:E; [|reflexivity].
  rewrite <- (f_gt_irrefl a Ha). symmetry. exact (f_gt_trans a b a Ha Hb Ha H E).
Qed.
Lemma f_gt_minus_one a : nn a -> f_gt a (f_of_Z (-1)) = true.
Proof.
  intros H. assert (E : f_of_Z (-1) = S754_finite true 4503599627370496 (-52)) by (vm_compute; reflexivity). rewrite E.
  unfold f_gt, SFltb. destruct a as [|[]| |[]]; simpl in *; try contradiction; reflexivity.
Qed.
