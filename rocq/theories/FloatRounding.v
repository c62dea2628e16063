(** * FloatRounding: the rounding error of the binary64 operations, in integers (no real numbers, no axioms).
    A number m * 2^e is represented by the integer m * 2^(e + 1000). *)
From Coq Require Import ZArith Lia Bool.
From Verif Require Import PyBase PyFloat.
Local Open Scope Z_scope.

Lemma digits_bounds p : 2 ^ (Zpos (digits2_pos p) - 1) <= Zpos p < 2 ^ Zpos (digits2_pos p).
Proof.
  induction p as [p IH|p IH|]; cbn [digits2_pos]; [| |simpl; lia];
    rewrite !Pos2Z.inj_succ; unfold Z.succ; replace (Zpos (digits2_pos p) + 1 - 1) with (Zpos (digits2_pos p) - 1 + 1) by lia;
    rewrite !Z.pow_add_r by lia; change (2 ^ 1) with 2; lia.
Qed.
Lemma digits_unique p d : 0 < d -> 2 ^ (d - 1) <= Zpos p < 2 ^ d -> Zpos (digits2_pos p) = d.
Proof.
  intros Hd [H1 H2]. destruct (digits_bounds p) as [B1 B2]. set (n := Zpos (digits2_pos p)) in *. assert (0 < n) by reflexivity.
  destruct (Z_lt_le_dec n d) as [L|L].
  - exfalso. assert (X : 2 ^ n <= 2 ^ (d - 1)) by (apply Z.pow_le_mono_r; lia). lia.
  - destruct (Z_lt_le_dec d n) as [L'|L']; [|lia]. exfalso. assert (X : 2 ^ d <= 2 ^ (n - 1)) by (apply Z.pow_le_mono_r; lia). lia.
Qed.

Lemma shr_1_div r : 0 <= shr_m r -> shr_m (shr_1 r) = shr_m r / 2.
Proof.
  destruct r as [m a b]. cbn [shr_m]. intro H. rewrite <- Z.div2_div. destruct m as [|[p|p|]|p]; try reflexivity. lia.
Qed.
Lemma iter_shr_div p : forall r, 0 <= shr_m r -> shr_m (iter_pos shr_1 p r) = shr_m r / 2 ^ Zpos p.
Proof.
  induction p as [p IH|p IH|]; intros r H; cbn [iter_pos].
  - assert (H1 : 0 <= shr_m (shr_1 r)) by (rewrite shr_1_div by exact H; apply Z.div_pos; lia).
    assert (H2 : 0 <= shr_m (iter_pos shr_1 p (shr_1 r))) by (rewrite IH by exact H1; apply Z.div_pos; lia).
    rewrite IH, IH, shr_1_div by assumption. rewrite !Z.div_div by lia. f_equal. rewrite Pos2Z.inj_xI. replace (2 * Zpos p + 1) with (1 + Zpos p + Zpos p) by lia. rewrite !Z.pow_add_r by lia. change (2 ^ 1) with 2. ring.
  - assert (H2 : 0 <= shr_m (iter_pos shr_1 p r)) by (rewrite IH by exact H; apply Z.div_pos; lia).
    rewrite IH, IH by assumption. rewrite Z.div_div by lia. assert (E : 2 ^ Zpos p * 2 ^ Zpos p = 2 ^ Zpos p~0) by (rewrite <- Z.pow_add_r by lia; f_equal; lia). rewrite E. reflexivity.
  - rewrite shr_1_div by exact H. reflexivity.
Qed.
Lemma shr_value m e n : 0 <= m -> 0 <= n -> shr_m (fst (shr (shr_record_of_loc m loc_Exact) e n)) = m / 2 ^ n /\ snd (shr (shr_record_of_loc m loc_Exact) e n) = e + n.
Proof.
  intros Hm Hn. destruct n as [|p|p]; [| |lia].
  - cbn. rewrite Z.div_1_r, Z.add_0_r. auto.
  - cbn [shr fst snd]. split; [|reflexivity]. rewrite iter_shr_div by exact Hm. reflexivity.
Qed.
Lemma round_choice q l : round_nearest_even q l = q \/ round_nearest_even q l = q + 1.
Proof. destruct l as [|[]]; cbn; auto. destruct (Z.even q); auto. Qed.

(** f is the normal number with the value v *)
Definition normal (f : spec_float) (v : Z) : Prop := exists m e, f = S754_finite false m e /\ 2 ^ 52 <= Zpos m < 2 ^ 53 /\ -1000 <= e /\ v = Zpos m * 2 ^ (e + 1000).
(** r is x up to a relative error of 2^-50 *)
Definition near (x r : Z) : Prop := (r - x) * 2 ^ 50 <= x /\ (x - r) * 2 ^ 50 <= x.
Definition in_range (v : Z) : Prop := 2 ^ 950 <= v < 2 ^ 1100.

Lemma digits_range m e : -1000 <= e -> in_range (Zpos m * 2 ^ (e + 1000)) -> -50 < Zpos (digits2_pos m) + e <= 101.
Proof.
  intros He [H1 H2]. destruct (digits_bounds m) as [B1 B2]. set (d := Zpos (digits2_pos m)) in *. assert (0 < d) by reflexivity. assert (P : 0 < 2 ^ (e + 1000)) by (apply Z.pow_pos_nonneg; lia). split.
  - destruct (Z_le_gt_dec (d + e) (-50)) as [L|L]; [|lia]. exfalso. assert (X : 2 ^ (d + (e + 1000)) <= 2 ^ 950) by (apply Z.pow_le_mono_r; lia). rewrite Z.pow_add_r in X by lia. nia.
  - destruct (Z_le_gt_dec (d + e) 101) as [L|L]; [lia|]. exfalso. assert (X : 2 ^ 1100 <= 2 ^ (d - 1 + (e + 1000))) by (apply Z.pow_le_mono_r; lia). rewrite Z.pow_add_r in X by lia. nia.
Qed.
Lemma fexp_range d e : -50 < d + e -> fexp f64_prec f64_emax (d + e) = d + e - 53.
Proof. intro H. unfold fexp, emin, f64_prec, f64_emax. lia. Qed.

Lemma aux_round m e : -1000 <= e -> in_range (Zpos m * 2 ^ (e + 1000)) -> 53 <= Zpos (digits2_pos m) ->
  exists v, normal (binary_round_aux f64_prec f64_emax false (Zpos m) e loc_Exact) v /\ near (Zpos m * 2 ^ (e + 1000)) v.
Proof.
  intros He Hr Hd. assert (R := digits_range m e He Hr). destruct (digits_bounds m) as [B1 B2]. unfold binary_round_aux.
  set (d := Zpos (digits2_pos m)) in *. set (n := d - 53).
  destruct (shr_fexp f64_prec f64_emax (Zpos m) e loc_Exact) as [r1 e1] eqn:E1. unfold shr_fexp in E1. cbn [Zdigits2] in E1. fold d in E1. rewrite fexp_range in E1 by lia.
  replace (d + e - 53 - e) with n in E1 by (unfold n; lia). assert (Hn : 0 <= n) by (unfold n; lia).
  destruct (shr_value (Zpos m) e n ltac:(lia) Hn) as [S1 S2]. rewrite E1 in S1, S2. cbn [fst snd] in S1, S2. clear E1.
  set (q := Zpos m / 2 ^ n) in *. rewrite S1. set (r := round_nearest_even q (loc_of_shr_record r1)).
  assert (P : 0 < 2 ^ n) by (apply Z.pow_pos_nonneg; lia). assert (Q : q * 2 ^ n <= Zpos m < (q + 1) * 2 ^ n).
  { assert (A := Z.div_mod (Zpos m) (2 ^ n) ltac:(lia)). assert (B := Z.mod_pos_bound (Zpos m) (2 ^ n) P). fold q in A. nia. }
  assert (Q52 : 2 ^ 52 <= q < 2 ^ 53).
  { assert (A1 : 2 ^ (d - 1) = 2 ^ 52 * 2 ^ n) by (rewrite <- Z.pow_add_r by lia; f_equal; unfold n; lia). assert (A2 : 2 ^ d = 2 ^ 53 * 2 ^ n) by (rewrite <- Z.pow_add_r by lia; f_equal; unfold n; lia). nia. }
  assert (Rq : r = q \/ r = q + 1) by apply round_choice. assert (R52 : 2 ^ 52 <= r <= 2 ^ 53) by lia.
  assert (Nn : n = d - 53) by reflexivity. assert (Ee : e1 = e + n) by lia. clear S1 S2.
  assert (Pe : 0 < 2 ^ (e + 1000)) by (apply Z.pow_pos_nonneg; lia).
  assert (Near : near (Zpos m * 2 ^ (e + 1000)) (r * 2 ^ (e1 + 1000))).
  { subst e1. replace (e + n + 1000) with (n + (e + 1000)) by lia. rewrite (Z.pow_add_r 2 n (e + 1000)) by lia. set (a := 2 ^ n) in *. set (b := 2 ^ (e + 1000)) in *.
    assert (X1 : - a <= r * a - Zpos m <= a) by nia. assert (X2 : 2 ^ 52 * a <= Zpos m) by nia. unfold near. replace (r * (a * b)) with (r * a * b) by lia. set (ra := r * a) in *. split; nia. }
  destruct (Z.eq_dec r (2 ^ 53)) as [E|E].
  - (* the carry *)
    assert (D : Zdigits2 r = 54) by (rewrite E; reflexivity).
    unfold shr_fexp. rewrite D. assert (F : fexp f64_prec f64_emax (54 + e1) - e1 = 1) by (rewrite fexp_range; lia). rewrite F.
    destruct (shr_value r e1 1 ltac:(lia) ltac:(lia)) as [T1 T2]. destruct (shr (shr_record_of_loc r loc_Exact) e1 1) as [r2 e2]. cbn [fst snd] in T1, T2.
    rewrite T1, E. change (2 ^ 53 / 2 ^ 1) with (2 ^ 52). cbn [Z.pow Z.pow_pos Pos.iter Z.mul Pos.mul]. destruct (Z.leb_spec e2 (f64_emax - f64_prec)) as [L|L]; [|unfold f64_emax, f64_prec in L; lia].
    exists (r * 2 ^ (e1 + 1000)). split; [|exact Near]. eexists _, e2. split; [reflexivity|]. split; [lia|]. split; [lia|]. subst e2. rewrite E. replace (e1 + 1 + 1000) with (1 + (e1 + 1000)) by lia. rewrite (Z.pow_add_r 2 1 (e1 + 1000)) by lia. change (2 ^ 1) with 2. change (2 ^ 53) with (2 ^ 52 * 2). ring.
  - assert (R53 : 2 ^ 52 <= r < 2 ^ 53) by lia. destruct r as [|p|p] eqn:Er; [lia| |lia].
    assert (D : Zdigits2 (Zpos p) = 53) by (cbn [Zdigits2]; apply digits_unique; [lia|exact R53]).
    unfold shr_fexp. rewrite D. assert (F : fexp f64_prec f64_emax (53 + e1) - e1 = 0) by (rewrite fexp_range; lia). rewrite F. cbn [shr shr_record_of_loc shr_m].
    destruct (Z.leb_spec e1 (f64_emax - f64_prec)) as [L|L]; [|unfold f64_emax, f64_prec in L; lia].
    exists (Zpos p * 2 ^ (e1 + 1000)). split; [|exact Near]. exists p, e1. split; [reflexivity|]. split; [exact R53|]. split; [lia|reflexivity].
Qed.
Lemma shl_value m e e' : e' <= e -> Zpos (fst (shl_align m e e')) = Zpos m * 2 ^ (e - e') /\ snd (shl_align m e e') = e'.
Proof.
  intro H. unfold shl_align. destruct (e' - e) as [|p|p] eqn:E; [| lia|].
  - replace (e - e') with 0 by lia. cbn [fst snd]. rewrite Z.mul_1_r. split; [reflexivity|lia].
  - cbn [fst snd]. split; [|reflexivity]. rewrite shift_pos_correct. replace (e - e') with (Zpos p) by lia. rewrite Z.mul_comm. reflexivity.
Qed.
Lemma norm_round m e : -1000 <= e -> in_range (Zpos m * 2 ^ (e + 1000)) ->
  exists v, normal (binary_normalize f64_prec f64_emax (Zpos m) e false) v /\ near (Zpos m * 2 ^ (e + 1000)) v.
Proof.
  intros He Hr. assert (R := digits_range m e He Hr). cbn [binary_normalize]. unfold binary_round. set (d := Zpos (digits2_pos m)) in *. rewrite fexp_range by lia.
  destruct (Z_le_gt_dec 53 d) as [L|L].
  - assert (E : shl_align m e (d + e - 53) = (m, e) \/ d = 53). { unfold shl_align. destruct (d + e - 53 - e) eqn:E; auto. lia. }
    destruct E as [E|E]; [rewrite E; apply aux_round; assumption|]. destruct (shl_value m e (d + e - 53) ltac:(lia)) as [S1 S2]. rewrite E in *. replace (e - (53 + e - 53)) with 0 in S1 by lia.
    destruct (shl_align m e (53 + e - 53)) as [mz ez]. cbn [fst snd] in S1, S2. rewrite Z.mul_1_r in S1. injection S1 as ->. replace ez with e by lia. apply aux_round; [assumption|assumption|]. fold d. lia.
  - destruct (shl_value m e (d + e - 53) ltac:(lia)) as [S1 S2]. destruct (shl_align m e (d + e - 53)) as [mz ez]. cbn [fst snd] in S1, S2.
    assert (V : Zpos mz * 2 ^ (ez + 1000) = Zpos m * 2 ^ (e + 1000)). { rewrite S1, S2, <- Z.mul_assoc, <- Z.pow_add_r by lia. do 2 f_equal. lia. }
    rewrite <- V in Hr |- *. apply aux_round; [lia|exact Hr|]. destruct (digits_bounds m) as [B1 B2]. fold d in B1, B2.
    replace (Zpos (digits2_pos mz)) with 53; [lia|]. symmetry. apply digits_unique; [lia|]. rewrite S1. replace (e - (d + e - 53)) with (53 - d) by lia.
    assert (X1 : 2 ^ (53 - 1) = 2 ^ (d - 1) * 2 ^ (53 - d)) by (rewrite <- Z.pow_add_r by (unfold d; lia); f_equal; lia). assert (X2 : 2 ^ 53 = 2 ^ d * 2 ^ (53 - d)) by (rewrite <- Z.pow_add_r by (unfold d; lia); f_equal; lia).
    assert (0 < 2 ^ (53 - d)) by (apply Z.pow_pos_nonneg; lia). rewrite X1, X2. nia.
Qed.

Lemma add_round x y vx vy : normal x vx -> normal y vy -> in_range (vx + vy) -> exists v, normal (f_add x y) v /\ near (vx + vy) v.
Proof.
  intros (mx & ex & -> & Bx & Ex & ->) (my & ey & -> & By & Ey & ->) H. unfold f_add, SFadd. cbn [cond_Zopp].
  destruct (shl_value mx ex (Z.min ex ey) ltac:(lia)) as [X1 _]. destruct (shl_value my ey (Z.min ex ey) ltac:(lia)) as [Y1 _]. rewrite X1, Y1.
  assert (V : (Zpos mx * 2 ^ (ex - Z.min ex ey) + Zpos my * 2 ^ (ey - Z.min ex ey)) * 2 ^ (Z.min ex ey + 1000) = Zpos mx * 2 ^ (ex + 1000) + Zpos my * 2 ^ (ey + 1000)).
  { rewrite Z.mul_add_distr_r, <- !Z.mul_assoc, <- !Z.pow_add_r by lia. do 3 f_equal; lia. }
  assert (P : 0 < Zpos mx * 2 ^ (ex - Z.min ex ey) + Zpos my * 2 ^ (ey - Z.min ex ey)).
  { assert (0 < 2 ^ (ex - Z.min ex ey)) by (apply Z.pow_pos_nonneg; lia). assert (0 < 2 ^ (ey - Z.min ex ey)) by (apply Z.pow_pos_nonneg; lia). nia. }
  rewrite <- V in H |- *. destruct (Zpos mx * 2 ^ (ex - Z.min ex ey) + Zpos my * 2 ^ (ey - Z.min ex ey)) as [|p|p]; [lia| |lia]. apply norm_round; [lia|exact H].
Qed.
Lemma of_Z_round z : 0 < z < 2 ^ 60 -> exists v, normal (f_of_Z z) v /\ near (z * 2 ^ 1000) v.
Proof.
  intros H. destruct z as [|p|p]; [lia| |lia]. unfold f_of_Z. change (2 ^ 1000) with (2 ^ (0 + 1000)). apply norm_round; [lia|]. unfold in_range. change (0 + 1000) with 1000.
  assert (2 ^ 60 * 2 ^ 1000 < 2 ^ 1100) by reflexivity. assert (2 ^ 950 < 2 ^ 1000) by reflexivity. split; nia.
Qed.
(** 0.01 * y *)
Definition c_0_01 : Z := 5764607523034235.
Lemma mul_round y vy : normal y vy -> 2 ^ 970 <= vy < 2 ^ 1090 -> exists x v, x * 2 ^ 59 = c_0_01 * vy /\ normal (f_mul f_0_01 y) v /\ near x v.
Proof.
  intros (my & ey & -> & By & Ey & ->) H. assert (L : -83 < ey).
  { destruct (Z_le_gt_dec ey (-83)) as [L|L]; [|lia]. exfalso. assert (X : 2 ^ (ey + 1000) <= 2 ^ 917) by (apply Z.pow_le_mono_r; lia). assert (Y : 2 ^ 53 * 2 ^ 917 = 2 ^ 970) by reflexivity. nia. }
  exists (Zpos (5764607523034235 * my) * 2 ^ (-59 + ey + 1000)). unfold f_mul, SFmul, f_0_01. cbn [xorb].
  assert (E : Zpos (5764607523034235 * my) * 2 ^ (-59 + ey + 1000) * 2 ^ 59 = c_0_01 * (Zpos my * 2 ^ (ey + 1000))).
  { rewrite <- Z.mul_assoc, <- Z.pow_add_r by lia. replace (-59 + ey + 1000 + 59) with (ey + 1000) by lia. rewrite Pos2Z.inj_mul. unfold c_0_01. lia. }
  destruct (aux_round (5764607523034235 * my) (-59 + ey)) as (v & N & A); [lia| | |exists v; auto].
  - assert (2 ^ 59 * 2 ^ 950 = 2 ^ 1009) by reflexivity. unfold in_range. set (x := Zpos (5764607523034235 * my) * 2 ^ (-59 + ey + 1000)) in *. set (w := Zpos my * 2 ^ (ey + 1000)) in *. unfold c_0_01 in E.
    assert (A1 : 2 ^ 59 < 5764607523034235 * 128) by reflexivity. assert (A2 : 5764607523034235 * 64 < 2 ^ 59) by reflexivity.
    assert (A3 : 2 ^ 950 * 1048576 = 2 ^ 970) by reflexivity. assert (A4 : 2 ^ 1090 * 1024 = 2 ^ 1100) by reflexivity. split; [lia|nia].
  - destruct (digits_bounds (5764607523034235 * my)) as [_ B]. set (d := Zpos (digits2_pos (5764607523034235 * my))) in *. destruct (Z_le_gt_dec 53 d) as [L'|L']; [exact L'|]. exfalso.
    assert (X : 2 ^ d <= 2 ^ 53) by (apply Z.pow_le_mono_r; lia). rewrite Pos2Z.inj_mul in B. assert (2 ^ 52 = 4503599627370496) by reflexivity. assert (2 ^ 53 = 9007199254740992) by reflexivity. nia.
Qed.

(** numbers in the order of their values *)
Lemma normal_lt x y vx vy : normal x vx -> normal y vy -> vx < vy -> f_gt y x = true.
Proof.
  intros (mx & ex & -> & Bx & Ex & ->) (my & ey & -> & By & Ey & ->) H. unfold f_gt, SFltb. cbn [SFcompare]. assert (P : 0 < 2 ^ (ey + 1000)) by (apply Z.pow_pos_nonneg; lia).
  destruct (Z.compare_spec ex ey) as [->|L|L]; [|reflexivity|].
  - assert (M : Zpos mx < Zpos my) by nia. change (Pos.compare_cont Eq mx my) with (Pos.compare mx my). rewrite (proj2 (Pos.compare_lt_iff mx my)); [reflexivity|exact M].
  - exfalso. assert (X : 2 ^ (ey + 1000) * 2 <= 2 ^ (ex + 1000)). { change 2 with (2 ^ 1) at 2. rewrite <- Z.pow_add_r by lia. apply Z.pow_le_mono_r; lia. }
    assert (2 ^ 53 = 2 ^ 52 * 2) by reflexivity. nia.
Qed.
Lemma normal_gt_zero y vy b : normal y vy -> f_gt y (S754_zero b) = true.
Proof. intros (m & e & -> & _). reflexivity. Qed.

(** ** one weight 1 + 0.01 * i *)
Definition weight_of (i : Z) : spec_float := f_add (f_of_Z 1) (f_mul f_0_01 (f_of_Z i)).
Lemma weight_round i : 0 <= i <= 1000 ->
  exists w, normal (weight_of i) w /\ (100 * w - (100 + i) * 2 ^ 1000) * 2 ^ 28 <= 2 ^ 1000 /\ ((100 + i) * 2 ^ 1000 - 100 * w) * 2 ^ 28 <= 2 ^ 1000.
Proof.
  intros H. unfold weight_of. destruct (of_Z_round 1 ltac:(lia)) as (u & Nu & Au). destruct (Z.eq_dec i 0) as [->|Hi].
  - assert (E : f_add (f_of_Z 1) (f_mul f_0_01 (f_of_Z 0)) = f_of_Z 1) by reflexivity. rewrite E. exists u. split; [exact Nu|]. unfold near in Au.
    generalize dependent (2 ^ 1000). intros K Au. split; lia.
  - destruct (of_Z_round i ltac:(lia)) as (y & Ny & Ay). 
    assert (R1 : 2 ^ 970 <= y < 2 ^ 1090).
    { unfold near in Ay. assert (A1 : 2 ^ 970 * 2 ^ 30 = 2 ^ 1000) by reflexivity. assert (A2 : 2 ^ 1000 * 2 ^ 90 = 2 ^ 1090) by reflexivity. assert (0 < 2 ^ 1000) by reflexivity.
      generalize dependent (2 ^ 1000). generalize dependent (2 ^ 970). generalize dependent (2 ^ 1090). intros. nia. }
    destruct (mul_round _ y Ny R1) as (x & v & Ex & Nv & Av).
    assert (Ev : (100 * v - i * 2 ^ 1000) * 2 ^ 46 <= i * 2 ^ 1000 /\ (i * 2 ^ 1000 - 100 * v) * 2 ^ 46 <= i * 2 ^ 1000).
    { unfold near, c_0_01 in *. generalize dependent (i * 2 ^ 1000). intros. lia. }
    assert (R2 : in_range (u + v)).
    { unfold in_range, near in *. assert (A1 : 2 ^ 950 * 2 ^ 50 = 2 ^ 1000) by reflexivity. assert (A2 : 2 ^ 1000 * 2 ^ 100 = 2 ^ 1100) by reflexivity. assert (0 < 2 ^ 1000) by reflexivity. assert (B : i * 2 ^ 1000 <= 1000 * 2 ^ 1000) by nia. assert (B' : 0 <= i * 2 ^ 1000) by nia.
      generalize dependent (i * 2 ^ 1000). generalize dependent (2 ^ 1000). generalize dependent (2 ^ 950). generalize dependent (2 ^ 1100). intros. lia. }
    destruct (add_round _ _ u v Nu Nv R2) as (w & Nw & Aw). exists w. split; [exact Nw|].
    assert (B : i * 2 ^ 1000 <= 1000 * 2 ^ 1000) by (assert (0 < 2 ^ 1000) by reflexivity; nia). assert (B' : 0 < 2 ^ 1000) by reflexivity. assert (B2 : 0 <= i * 2 ^ 1000) by nia. unfold near in *. rewrite Z.mul_add_distr_r. clear R1 R2 Ny Nu Nv Nw Ex Av Ay.
    generalize dependent (i * 2 ^ 1000). generalize dependent (2 ^ 1000). intros. lia.
Qed.

(** ** the sum of weights: with n weights of exact total S hundredths, the float is within n * 2^-20 hundredths *)
Definition tracks (f : spec_float) (n S : Z) : Prop :=
  (f = S754_zero false /\ n = 0 /\ S = 0) \/
  exists v, 1 <= n /\ normal f v /\ (100 * v - S * 2 ^ 1000) * 2 ^ 20 <= n * 2 ^ 1000 /\ (S * 2 ^ 1000 - 100 * v) * 2 ^ 20 <= n * 2 ^ 1000.
Lemma tracks_step f n S i : 0 <= n <= 1000 -> 0 <= i <= 1000 -> 100 * n <= S <= 1100 * n -> tracks f n S -> tracks (f_add f (weight_of i)) (n + 1) (S + 100 + i).
Proof.
  intros Hn Hi HS T. destruct (weight_round i Hi) as (w & Nw & W1 & W2). right. destruct T as [(-> & -> & ->)|(v & Hv & Nv & V1 & V2)].
  - exists w. split; [lia|]. split; [destruct Nw as (m & e & E & X); exists m, e; rewrite E; split; [reflexivity|exact X]|].
    assert (0 < 2 ^ 1000) by reflexivity. rewrite !Z.mul_add_distr_r in *. generalize dependent (i * 2 ^ 1000). generalize dependent (2 ^ 1000). intros. split; nia.
  - assert (P : 0 < 2 ^ 1000) by reflexivity. assert (B1 : 0 <= i * 2 ^ 1000 <= 1000 * 2 ^ 1000) by nia. assert (B2 : 100 * 2 ^ 1000 <= S * 2 ^ 1000 <= 1100000 * 2 ^ 1000) by nia. assert (B3 : 0 <= n * 2 ^ 1000 <= 1000 * 2 ^ 1000) by nia.
    rewrite Z.mul_add_distr_r in W1, W2.
    assert (R : in_range (v + w)).
    { unfold in_range. assert (A1 : 2 ^ 950 * 2 ^ 50 = 2 ^ 1000) by reflexivity. assert (A2 : 2 ^ 1000 * 2 ^ 100 = 2 ^ 1100) by reflexivity.
      generalize dependent (n * 2 ^ 1000). generalize dependent (S * 2 ^ 1000). generalize dependent (i * 2 ^ 1000). generalize dependent (2 ^ 1000). generalize dependent (2 ^ 950). generalize dependent (2 ^ 1100). intros. lia. }
    destruct (add_round _ _ v w Nv Nw R) as (z & Nz & Az). exists z. split; [lia|]. split; [exact Nz|]. unfold near in Az. rewrite !Z.mul_add_distr_r. clear R Nv Nw Nz.
    generalize dependent (n * 2 ^ 1000). generalize dependent (S * 2 ^ 1000). generalize dependent (i * 2 ^ 1000). generalize dependent (2 ^ 1000). intros. lia.
Qed.
Lemma tracks_gt f g n m S T : 0 <= n <= 1000 -> 0 <= m <= 1000 -> tracks f n S -> tracks g m T -> T < S -> f_gt f g = true.
Proof.
  intros Hn Hm [(-> & -> & ->)|(v & Hv & Nv & V1 & V2)] [(-> & -> & ->)|(w & Hw & Nw & W1 & W2)] H; try lia.
  - exfalso. destruct Nw as (p & e & _ & _ & L & ->). assert (0 < 2 ^ (e + 1000)) by (apply Z.pow_pos_nonneg; lia). assert (0 < 2 ^ 1000) by reflexivity. set (z := Zpos p * 2 ^ (e + 1000)) in *. assert (0 < z) by (unfold z; nia).
    assert (T * 2 ^ 1000 <= - 2 ^ 1000) by nia. assert (m * 2 ^ 1000 <= 1000 * 2 ^ 1000) by nia. generalize dependent (T * 2 ^ 1000). generalize dependent (m * 2 ^ 1000). generalize dependent (2 ^ 1000). intros. lia.
  - apply (normal_gt_zero _ v). exact Nv.
  - apply (normal_lt _ _ w v Nw Nv). assert (P : 0 < 2 ^ 1000) by reflexivity. assert (B : T * 2 ^ 1000 + 2 ^ 1000 <= S * 2 ^ 1000) by nia.
    assert (n * 2 ^ 1000 <= 1000 * 2 ^ 1000) by nia. assert (m * 2 ^ 1000 <= 1000 * 2 ^ 1000) by nia. clear Nv Nw.
    generalize dependent (T * 2 ^ 1000). generalize dependent (S * 2 ^ 1000). generalize dependent (m * 2 ^ 1000). generalize dependent (n * 2 ^ 1000). generalize dependent (2 ^ 1000). intros. lia.
Qed.
