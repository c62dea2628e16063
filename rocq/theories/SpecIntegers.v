(** * SpecIntegers: how Russian numerals are classified; histories and schedules of construct_integer *)
From Verif Require Import PyBase Relations Restrictions Logic Data Words Constructors SpecProps.

(** [numeral n form number]: the class of the number n >= 0 *)
Definition ordinary (n : Z) : Prop := (~ (1 <= n <= 4) /\ n <> 1000000 /\ n <> 1000000000)%Z.
Definition teens (n : Z) : Prop := (10 <= n mod 100 <= 19)%Z.
Inductive numeral : Z -> prop -> prop -> Prop :=
  | num_million n : (n = 1000000 \/ n = 1000000000)%Z -> numeral n INTEGER_FORM_MIL_BIL NUMBER_PLURAL
  | num_one : numeral 1 INTEGER_FORM_SINGULAR NUMBER_SINGULAR
  | num_few n : (2 <= n <= 4)%Z -> numeral n INTEGER_FORM_DUAL NUMBER_PLURAL
  | num_teens n : ordinary n -> teens n -> numeral n INTEGER_FORM_PLURAL NUMBER_PLURAL
  | num_ends_1 n : ordinary n -> ~ teens n -> (n mod 10 = 1)%Z -> numeral n INTEGER_FORM_SINGULAR NUMBER_PLURAL
  | num_ends_234 n : ordinary n -> ~ teens n -> (2 <= n mod 10 <= 4)%Z -> numeral n INTEGER_FORM_COMPOSITE_DUAL NUMBER_PLURAL
  | num_other n : ordinary n -> ~ teens n -> (n mod 10 = 0 \/ 5 <= n mod 10)%Z -> numeral n INTEGER_FORM_PLURAL NUMBER_PLURAL.

(** the state of the module after the calls construct_integer(n) for n in the list, one after the other *)
Inductive after_calls : list Z -> integer_cache -> Prop :=
  | no_calls : after_calls [] None
  | one_more ns c n : after_calls ns c -> after_calls (ns ++ [n]) (fst (construct_integer c n)).

(** the thread number i occurs at least k times in the schedule *)
Definition runs (i : nat) (schedule : list nat) : nat := count_occ Nat.eq_dec schedule i.
(** canonical decimal notation: digits without leading zeros, "-" for negative numbers *)
Definition canonical (s : str) : Prop :=
  exists ds, ds <> [] /\ Forall is_digit ds /\ (hd 0%N ds = 48%N -> ds = [48%N]) /\ (s = ds \/ (s = 45%N :: ds /\ ds <> [48%N])).
