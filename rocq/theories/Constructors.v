(** * Constructors: utg/constructors.py *)
From Coq Require Import Decimal.
From Verif Require Import PyBase Relations Restrictions Logic Data Words.

(** class INTEGER_PROPERTIES, utg/constructors.py:9-18 *)
Definition IS_KKK : props := Properties [AProp NUMBER_PLURAL; AProp INTEGER_FORM_MIL_BIL].
Definition IS_1 : props := Properties [AProp NUMBER_SINGULAR; AProp INTEGER_FORM_SINGULAR].
Definition IS_234 : props := Properties [AProp NUMBER_PLURAL; AProp INTEGER_FORM_DUAL].
Definition IS_10_19 : props := Properties [AProp NUMBER_PLURAL; AProp INTEGER_FORM_PLURAL].
Definition IS_END_BY_1 : props := Properties [AProp NUMBER_PLURAL; AProp INTEGER_FORM_SINGULAR].
Definition IS_MOD_234 : props := Properties [AProp NUMBER_PLURAL; AProp INTEGER_FORM_COMPOSITE_DUAL].
Definition IS_OTHER : props := Properties [AProp NUMBER_PLURAL; AProp INTEGER_FORM_PLURAL].

(** [str(number)] for a Python int (the digit limit of CPython >= 3.11 for huge numbers is not modelled) *)
Fixpoint uint_str (d : uint) : str :=
  match d with
  | Nil => []
  | D0 d => 48%N :: uint_str d
  | D1 d => 49%N :: uint_str d
  | D2 d => 50%N :: uint_str d
  | D3 d => 51%N :: uint_str d
  | D4 d => 52%N :: uint_str d
  | D5 d => 53%N :: uint_str d
  | D6 d => 54%N :: uint_str d
  | D7 d => 55%N :: uint_str d
  | D8 d => 56%N :: uint_str d
  | D9 d => 57%N :: uint_str d
  end.
Definition str_of_Z (z : Z) : str :=
  (if Z.ltb z 0 then [45%N] else []) ++ uint_str (N.to_uint (Z.abs_N z)).

(** the choice of properties in _construct_integer, utg/constructors.py:23-38 *)
Definition integer_properties (number0 : Z) : props :=
  let number := Z.abs number0 in
  (if Z.eqb number 1000000 || Z.eqb number 1000000000 then IS_KKK
   else if Z.eqb number 1 then IS_1
   else if Z.eqb number 2 || Z.eqb number 3 || Z.eqb number 4 then IS_234
   else if Z.leb 10 (number mod 100) && Z.leb (number mod 100) 19 then IS_10_19
   else if Z.eqb (number mod 10) 1 then IS_END_BY_1
   else if Z.leb 2 (number mod 10) && Z.leb (number mod 10) 4 then IS_MOD_234
   else IS_OTHER)%Z.

(** _construct_integer, utg/constructors.py:21-40 *)
Definition construct_integer_raw (number : Z) : result wordform :=
  w <- Word WT_INTEGER [str_of_Z number] (integer_properties number) ;;
  Ok (WordForm w None None).

(** utg/constructors.py:43-45 *)
Definition CACHE_LEFT : Z := 0.
Definition CACHE_RIGHT : Z := 10000.
Definition integer_cache := option (list wordform).   (* _INTEGER_CACHE *)

(** the tuple built at utg/constructors.py:52 *)
Definition build_integer_cache : result (list wordform) :=
  mapM (fun i => construct_integer_raw (Z.of_nat i + CACHE_LEFT))
       (seq 0 (Z.to_nat (CACHE_RIGHT - CACHE_LEFT + 1))).

Definition in_cache_range (number : Z) : bool := (Z.leb CACHE_LEFT number && Z.leb number CACHE_RIGHT)%Z.

(** [_INTEGER_CACHE[number]] for a number that passed the range test (so it is not negative);
    [None[number]] is a TypeError *)
Definition cache_index (c : integer_cache) (number : Z) : result wordform :=
  match c with
  | None => Err TypeError
  | Some l => py_nth l (Z.to_nat number)
  end.

(** construct_integer, utg/constructors.py:47-55, run without interruption: new cache and outcome *)
Definition construct_integer (c : integer_cache) (number : Z) : integer_cache * result wordform :=
  if in_cache_range number then
    match c with
    | Some _ => (c, cache_index c number)
    | None => match build_integer_cache with
              | Ok l => (Some l, cache_index (Some l) number)
              | Err e => (None, Err e)
              end
    end
  else (c, construct_integer_raw number).

(** ** The same function as a thread of a concurrent program.  One atomic step per access to the global
    _INTEGER_CACHE (utg/constructors.py:51 read, 52 write, 53 read). *)
Inductive ci_pc :=
  | CI_start (number : Z)                          (* line 50: range test *)
  | CI_test (number : Z)                           (* line 51: is the global None? *)
  | CI_build (number : Z)                          (* line 52: right-hand side *)
  | CI_store (number : Z) (l : list wordform)      (* line 52: assignment *)
  | CI_load (number : Z)                           (* line 53 *)
  | CI_done (number : Z) (r : result wordform).

Definition ci_step (c : integer_cache) (pc : ci_pc) : integer_cache * ci_pc :=
  match pc with
  | CI_start n => (c, if in_cache_range n then CI_test n else CI_done n (construct_integer_raw n))
  | CI_test n => (c, match c with None => CI_build n | Some _ => CI_load n end)
  | CI_build n => (c, match build_integer_cache with Ok l => CI_store n l | Err e => CI_done n (Err e) end)
  | CI_store n l => (Some l, CI_load n)
  | CI_load n => (c, CI_done n (cache_index c n))
  | CI_done n r => (c, CI_done n r)
  end.

(** Thread number [i] of the pool makes one step (nothing happens if there is no such thread). *)
Definition ci_step_at (st : integer_cache * list ci_pc) (i : nat) : integer_cache * list ci_pc :=
  match nth_error (snd st) i with
  | None => st
  | Some pc => let (c', pc') := ci_step (fst st) pc in (c', list_set i pc' (snd st))
  end.

(** A schedule is the list of the thread numbers that move. *)
Definition ci_run (st : integer_cache * list ci_pc) (schedule : list nat) : integer_cache * list ci_pc :=
  fold_left ci_step_at schedule st.
