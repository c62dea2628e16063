(** * Lexicon: utg/lexicon.py.  Keys, templates and single restrictions are arbitrary Python values: types with
    a boolean equality for keys ([K]) and restrictions ([R]); templates ([T]) are never compared. *)
From Verif Require Import PyBase.

Section Lexicon.
  Context {K T R : Type} (keqb : K -> K -> bool) (reqb : R -> R -> bool).

  (** frozenset of restrictions as a list; [a.issubset(b)], and [len(a & b)] *)
  Definition issubset (a b : list R) : bool := forallb (fun x => mem reqb x b) a.
  Fixpoint distinct (a : list R) : list R :=
    match a with
    | [] => []
    | x :: a' => if mem reqb x a' then distinct a' else x :: distinct a'
    end.
  Definition len_intersection (a b : list R) : nat :=
    length (distinct (filter (fun x => mem reqb x b) a)).

  (** [_data]: key -> list of (template, restrictions), utg/lexicon.py:10-11 *)
  Definition lexicon := dict K (list (T * list R)).
  Definition empty_lexicon : lexicon := [].

  (** add_template, utg/lexicon.py:13-17 *)
  Definition add_template (l : lexicon) (key : K) (template : T) (restrictions : list R) : lexicon :=
    let l' := if dmem keqb key l then l else dset keqb key [] l in
    match dget keqb key l' with
    | Some ts => dset keqb key (ts ++ [(template, restrictions)]) l'
    | None => l'   (* unreachable *)
    end.

  (** has_key, utg/lexicon.py:19-20 *)
  Definition has_key (l : lexicon) (key : K) : bool := dmem keqb key l.

  (** [self._data.get(key, ())] *)
  Definition entries (l : lexicon) (key : K) : list (T * list R) :=
    match dget keqb key l with Some ts => ts | None => [] end.

  (** get_templates, utg/lexicon.py:22-27 *)
  Definition get_templates (l : lexicon) (key : K) (restrictions : list R) : list T :=
    map fst (filter (fun tr => issubset (snd tr) restrictions) (entries l key)).

  (** random.choice of a non-empty sequence; [rnd] is the outcome of the random generator *)
  Definition choice {A} (rnd : nat) (l : list A) : result A := py_nth l (Nat.modulo rnd (length l)).

  (** get_random_template, utg/lexicon.py:29-38 *)
  Definition get_random_template (rnd : nat) (l : lexicon) (key : K) (restrictions : list R) : result T :=
    if negb (dmem keqb key l) then Err UnknownLexiconKeyError
    else match get_templates l key restrictions with
         | [] => Err NoTemplatesWithSpecifiedRestrictions
         | candidates => choice rnd candidates
         end.

  (** _get_nearest_templates, utg/lexicon.py:40-56: one iteration; state (templates, best_distance) *)
  Definition nearest_templates_step (restrictions : list R) (st : list (T * Z) * Z) (tr : T * list R)
      : list (T * Z) * Z :=
    if negb (issubset (snd tr) restrictions) then st
    else let distance := Z.of_nat (len_intersection (snd tr) restrictions) in
         (fst st ++ [(fst tr, distance)],
          if Z.ltb (snd st) distance then distance else snd st).
  Definition get_nearest_templates (l : lexicon) (key : K) (restrictions : list R) : list T :=
    let st := fold_left (nearest_templates_step restrictions) (entries l key) ([], (-1)%Z) in
    map fst (filter (fun td => Z.eqb (snd td) (snd st)) (fst st)).

  (** get_random_nearest_template, utg/lexicon.py:58-67 *)
  Definition get_random_nearest_template (rnd : nat) (l : lexicon) (key : K) (restrictions : list R) : result T :=
    if negb (dmem keqb key l) then Err UnknownLexiconKeyError
    else match get_nearest_templates l key restrictions with
         | [] => Err NoTemplatesWithSpecifiedRestrictions
         | candidates => choice rnd candidates
         end.
End Lexicon.
Arguments lexicon : clear implicits.
