(** * LexShared: utg/lexicon.py once more, with the sets of restrictions as objects.  add_template stores a reference to the
    set it is given (utg/lexicon.py:17), and the selections read the sets when they are called (utg/lexicon.py:25,46,49).
    Sets are numbered in the order of their creation; [None] is the default argument, one frozenset that is empty for ever
    (utg/lexicon.py:13). *)
From Verif Require Import PyBase Words Lexicon.

Section LexShared.
  Context {K T R : Type} (keqb : K -> K -> bool) (reqb : R -> R -> bool).

  Record shared := { sh_sets : list (list R); sh_data : dict K (list (T * option nat)) }.
  Definition fresh : shared := {| sh_sets := []; sh_data := [] |}.
  (** the elements of a set now *)
  Definition sh_contents (s : shared) (r : option nat) : list R := match r with None => [] | Some i => nth i (sh_sets s) [] end.

  (** what the caller does: makes a set, changes one (add, discard, update, ...: its elements are these from now on), or calls
      add_template *)
  Inductive sh_action := NewSet (elements : list R) | ChangeSet (i : nat) (elements : list R) | AddTemplate (key : K) (template : T) (restrictions : option nat).
  (** add_template, utg/lexicon.py:13-17 *)
  Definition sh_add_template (l : dict K (list (T * option nat))) (key : K) (template : T) (restrictions : option nat) : dict K (list (T * option nat)) :=
    let l' := if dmem keqb key l then l else dset keqb key [] l in
    match dget keqb key l' with
    | Some ts => dset keqb key (ts ++ [(template, restrictions)]) l'
    | None => l'   (* unreachable *)
    end.
  Definition sh_act (s : shared) (a : sh_action) : shared :=
    match a with
    | NewSet elements => {| sh_sets := sh_sets s ++ [elements]; sh_data := sh_data s |}
    | ChangeSet i elements => {| sh_sets := list_set i elements (sh_sets s); sh_data := sh_data s |}
    | AddTemplate key template r => {| sh_sets := sh_sets s; sh_data := sh_add_template (sh_data s) key template r |}
    end.
  Definition sh_after (h : list sh_action) : shared := fold_left sh_act h fresh.

  (** has_key, utg/lexicon.py:19-20 *)
  Definition sh_has_key (s : shared) (key : K) : bool := dmem keqb key (sh_data s).
  Definition sh_entries (s : shared) (key : K) : list (T * option nat) := match dget keqb key (sh_data s) with Some ts => ts | None => [] end.
  (** get_templates, utg/lexicon.py:22-27 *)
  Definition sh_get_templates (s : shared) (key : K) (restrictions : list R) : list T :=
    map fst (filter (fun tr => issubset reqb (sh_contents s (snd tr)) restrictions) (sh_entries s key)).
  (** _get_nearest_templates, utg/lexicon.py:40-56 *)
  Definition sh_nearest_step (s : shared) (restrictions : list R) (st : list (T * Z) * Z) (tr : T * option nat) : list (T * Z) * Z :=
    if negb (issubset reqb (sh_contents s (snd tr)) restrictions) then st
    else let distance := Z.of_nat (len_intersection reqb (sh_contents s (snd tr)) restrictions) in
         (fst st ++ [(fst tr, distance)], if Z.ltb (snd st) distance then distance else snd st).
  Definition sh_get_nearest_templates (s : shared) (key : K) (restrictions : list R) : list T :=
    let st := fold_left (sh_nearest_step s restrictions) (sh_entries s key) ([], (-1)%Z) in
    map fst (filter (fun td => Z.eqb (snd td) (snd st)) (fst st)).
  (** get_random_template, get_random_nearest_template, utg/lexicon.py:29-38,58-67 *)
  Definition sh_random (rnd : nat) (nearest : bool) (s : shared) (key : K) (restrictions : list R) : result T :=
    if negb (dmem keqb key (sh_data s)) then Err UnknownLexiconKeyError
    else match (if nearest then sh_get_nearest_templates s key restrictions else sh_get_templates s key restrictions) with
         | [] => Err NoTemplatesWithSpecifiedRestrictions
         | candidates => choice rnd candidates
         end.
End LexShared.
Arguments shared : clear implicits.
Arguments sh_action : clear implicits.
