(** * PyFloat: the binary64 arithmetic used by utg/logic.py:get_nearest_key.
    [Coq.Floats.SpecFloat] is the executable IEEE-754 specification of the standard library
    (pure Gallina, round to nearest even); Python floats are binary64: precision 53, emax 1024. *)
From Coq Require Import ZArith.
From Coq Require Export Floats.SpecFloat.

Definition f64_prec : Z := 53.
Definition f64_emax : Z := 1024.
Definition f_add : spec_float -> spec_float -> spec_float := SFadd f64_prec f64_emax.
Definition f_mul : spec_float -> spec_float -> spec_float := SFmul f64_prec f64_emax.
(** conversion of a Python int (here: a list index, 0, 1 or -1) to float *)
Definition f_of_Z (z : Z) : spec_float := binary_normalize f64_prec f64_emax z 0 false.
(** [a > b] *)
Definition f_gt (a b : spec_float) : bool := SFltb b a.
(** the literal 0.01 = 0x1.47ae147ae147bp-7 *)
Definition f_0_01 : spec_float := S754_finite false 5764607523034235 (-59).
