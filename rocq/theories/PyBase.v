(** * PyBase: the Python values the model needs (exceptions, str, dict).

    Model file: definitions only (proofs about them are in PyBaseFacts.v). *)
From Coq Require Import String Ascii.
From Coq Require Export List Arith NArith ZArith Bool.
Export ListNotations StringSyntax.
Global Open Scope list_scope.

(** ** Strings: Python [str] = list of Unicode code points. *)
Definition char := N.
Definition str := list char.

Definition str_eqb : str -> str -> bool := fix eqb (a b : str) : bool :=
  match a, b with
  | [], [] => true
  | x :: a', y :: b' => N.eqb x y && eqb a' b'
  | _, _ => false
  end.

(** Decoding of a Coq string literal (UTF-8 bytes of this source file) into code points, so that
    the Russian literals of /repo can be written as they are: [u "монета"].  Only 1- and 2-byte
    sequences occur. *)
Fixpoint utf8 (s : string) : str :=
  match s with
  | EmptyString => []
  | String c s' =>
      let n := N_of_ascii c in
      if N.ltb n 128 then n :: utf8 s'
      else match s' with
           | String d s'' => (N.lor (N.shiftl (N.land n 31) 6) (N.land (N_of_ascii d) 63)) :: utf8 s''
           | EmptyString => []
           end
  end.
Definition u (s : string) : str := utf8 s.
Arguments u s%string.

(** ** Exceptions as values.  The first group is utg/exceptions.py:16-55, the second the built-in
    errors that the code can provoke, [NotExternalValueError] is the error of rels for [Relation(v)]. *)
Inductive exn :=
  | WrongFormsNumberError (wrong_number expected_number : nat)
  | UnknownVerboseIdError (verbose_id : str)
  | ExternalDependecyNotFoundError (dependency : str)
  | WrongDependencyFormatError (dependency : str)
  | NoWordsFoundError (text : str)
  | UnknownLexiconKeyError
  | NoTemplatesWithSpecifiedRestrictions
  | UnknownIntegerFormError
  | KeyError | IndexError | TypeError | ValueError | AttributeError
  | NotExternalValueError.

Inductive result (A : Type) := Ok (a : A) | Err (e : exn).
Arguments Ok {A} a.
Arguments Err {A} e.

Definition bind {A B} (m : result A) (f : A -> result B) : result B :=
  match m with Ok a => f a | Err e => Err e end.
Notation "x <- m ;; k" := (bind m (fun x => k)) (at level 61, m at next level, right associativity).

(** [l[i]] on a list with a non-negative index. *)
Definition py_nth {A} (l : list A) (i : nat) : result A :=
  match nth_error l i with Some a => Ok a | None => Err IndexError end.

(** A list comprehension / generator consumed to the end: the first error aborts it. *)
Fixpoint mapM {A B} (f : A -> result B) (l : list A) : result (list B) :=
  match l with
  | [] => Ok []
  | a :: l' => b <- f a ;; bs <- mapM f l' ;; Ok (b :: bs)
  end.

(** ** dict: association list in insertion order (CPython >= 3.7). *)
Section Dict.
  Context {K V : Type} (eqb : K -> K -> bool).

  Definition dict := list (K * V).

  Fixpoint dget (k : K) (d : dict) : option V :=
    match d with
    | [] => None
    | (k', v) :: d' => if eqb k k' then Some v else dget k d'
    end.

  Definition dmem (k : K) (d : dict) : bool :=
    match dget k d with Some _ => true | None => false end.

  (** [d[k] = v]: keeps the position of an existing key, else appends. *)
  Fixpoint dset (k : K) (v : V) (d : dict) : dict :=
    match d with
    | [] => [(k, v)]
    | (k', v') :: d' => if eqb k k' then (k', v) :: d' else (k', v') :: dset k v d'
    end.

  (** [d.update(d')] *)
  Definition dupdate (d d' : dict) : dict :=
    fold_left (fun acc kv => dset (fst kv) (snd kv) acc) d' d.

  Definition dkeys (d : dict) : list K := map fst d.

  (** [del d[k]] (the caller checks presence) *)
  Definition ddel (k : K) (d : dict) : dict := filter (fun kv => negb (eqb k (fst kv))) d.
End Dict.
Arguments dict : clear implicits.

Definition mem {A} (eqb : A -> A -> bool) (a : A) (l : list A) : bool := existsb (eqb a) l.

Definition opt_eqb {A} (eqb : A -> A -> bool) (a b : option A) : bool :=
  match a, b with
  | None, None => true
  | Some x, Some y => eqb x y
  | _, _ => false
  end.

Definition list_eqb {A} (eqb : A -> A -> bool) : list A -> list A -> bool :=
  fix go (a b : list A) : bool :=
    match a, b with
    | [], [] => true
    | x :: a', y :: b' => eqb x y && go a' b'
    | _, _ => false
    end.

(** ** str methods *)

(** [s.split(sep)] for a one-character separator: always at least one piece. *)
Fixpoint split_on (sep : char) (s : str) : list str :=
  match s with
  | [] => [[]]
  | c :: s' =>
      if N.eqb c sep then [] :: split_on sep s'
      else match split_on sep s' with
           | p :: ps => (c :: p) :: ps
           | [] => [[c]]            (* unreachable: split_on is never [] *)
           end
  end.

(** [sep.join(l)] *)
Fixpoint join (sep : str) (l : list str) : str :=
  match l with
  | [] => []
  | [a] => a
  | a :: l' => a ++ sep ++ join sep l'
  end.

Fixpoint starts_with (p s : str) : bool :=   (* s.startswith(p) *)
  match p, s with
  | [], _ => true
  | x :: p', y :: s' => N.eqb x y && starts_with p' s'
  | _ :: _, [] => false
  end.

(** [s.replace(pat, rep, 1)] for a non-empty [pat]. *)
Fixpoint replace_first (pat rep s : str) : str :=
  if starts_with pat s then rep ++ skipn (length pat) s
  else match s with
       | [] => []
       | c :: s' => c :: replace_first pat rep s'
       end.

(** [s.replace(c, rep)] for a one-character [c]. *)
Definition replace_char (c : char) (rep s : str) : str :=
  flat_map (fun x => if N.eqb x c then rep else [x]) s.

Fixpoint lstrip (isspace : char -> bool) (s : str) : str :=
  match s with
  | [] => []
  | c :: s' => if isspace c then lstrip isspace s' else s
  end.
Definition strip (isspace : char -> bool) (s : str) : str :=
  rev (lstrip isspace (rev (lstrip isspace s))).

(** [s.count(c)] *)
Definition count_char (c : char) (s : str) : nat := length (filter (N.eqb c) s).

(** Lexicographic comparison of strings by code point ([<] on str). *)
Fixpoint str_compare (a b : str) : comparison :=
  match a, b with
  | [], [] => Eq
  | [], _ :: _ => Lt
  | _ :: _, [] => Gt
  | x :: a', y :: b' => match N.compare x y with Eq => str_compare a' b' | c => c end
  end.
(** [<] / [>] on lists of str. *)
Fixpoint strs_compare (a b : list str) : comparison :=
  match a, b with
  | [], [] => Eq
  | [], _ :: _ => Lt
  | _ :: _, [] => Gt
  | x :: a', y :: b' => match str_compare x y with Eq => strs_compare a' b' | c => c end
  end.

(** ** Unicode tables of the Python runtime.  Every function of the model that needs one of them
    takes the whole record as an argument, so theorems hold for all tables. *)
Record unicode := {
  u_upper : char -> str;      (* c.upper() of a one-character string; may be longer than 1 *)
  u_lower : str -> str;       (* s.lower() *)
  u_isupper : char -> bool;   (* c.isupper() *)
  u_isspace : char -> bool    (* the characters removed by s.strip() *)
}.

(** A concrete table, exact on ASCII and the Russian alphabet (used only in examples and
    counterexamples). *)
Definition ru_lower_char (c : char) : char :=
  if (N.leb 65 c && N.leb c 90)%bool then (c + 32)%N
  else if (N.leb 1040 c && N.leb c 1071)%bool then (c + 32)%N
  else if N.eqb c 1025 then 1105%N else c.
Definition ru_upper_char (c : char) : char :=
  if (N.leb 97 c && N.leb c 122)%bool then (c - 32)%N
  else if (N.leb 1072 c && N.leb c 1103)%bool then (c - 32)%N
  else if N.eqb c 1105 then 1025%N else c.
Definition ru_unicode : unicode := {|
  u_upper := fun c => [ru_upper_char c];
  u_lower := map ru_lower_char;
  u_isupper := fun c => negb (N.eqb (ru_lower_char c) c);
  u_isspace := fun c => N.eqb c 32 || (N.leb 9 c && N.leb c 13) || (N.leb 28 c && N.leb c 31)
                        || N.eqb c 133 || N.eqb c 160
|}.
