(** * Logic: utg/logic.py *)
From Verif Require Import PyBase PyFloat Relations Restrictions.

(** A key is a tuple of records or None. *)
Definition key := list (option prop).
Definition key_eqb : key -> key -> bool := list_eqb (opt_eqb prop_eqb).

(** get_default_properties, utg/logic.py:12-20 *)
Definition get_default_properties : dict relation (option prop) :=
  dset rel_eqb R_WORD_TYPE None
    (fold_left (fun values r => dset rel_eqb r (hd_error (records r)) values) all_relations []).

(** get_verbose_to_relations, utg/logic.py:22-29 *)
Definition get_verbose_to_relations : dict str prop :=
  fold_left (fun values r =>
    fold_left (fun values' p => dset str_eqb (verbose_id p) p values') (records r) values)
  all_relations [].

(** [used_property in restrictions and central in restrictions[used_property]], utg/logic.py:42;
    None is never a key of a restrictions dict. *)
Definition restricts (restr : restr_table) (used : option prop) (central : relation) : bool :=
  match used with
  | None => false
  | Some q => match dget prop_eqb q restr with
              | Some l => mem rel_eqb central l
              | None => false
              end
  end.

(** _keys_generator, utg/logic.py:32-50 (a generator is the list of the values it yields) *)
Fixpoint keys_generator (left : key) (right : list relation) (restr : restr_table) : list key :=
  match right with
  | [] => [[]]
  | central :: right' =>
      if existsb (fun used => restricts restr used central) left
      then map (cons None) (keys_generator (left ++ [None]) right' restr)
      else flat_map (fun record =>
             map (cons (Some record)) (keys_generator (left ++ [Some record]) right' restr))
           (records central)
  end.

(** [restricted_part.issubset(set(key))], utg/logic.py:55 *)
Definition part_in_key (part : list prop) (k : key) : bool :=
  forallb (fun p => mem (opt_eqb prop_eqb) (Some p) k) part.

(** _restricted_keys_generator, utg/logic.py:52-58, with left = [] as in its only call *)
Definition restricted_keys_generator (sch : list relation) (restr : restr_table)
    (parts : list (list prop)) : list key :=
  filter (fun k => negb (existsb (fun part => part_in_key part k) parts))
         (keys_generator [] sch restr).

Definition enumerate {A} (l : list A) : list (nat * A) := combine (seq 0 (length l)) l.

(** _get_cache, utg/logic.py:61-69: (cache, inverted_cache) *)
Definition get_cache (sch : list relation) (restr : restr_table) (parts : list (list prop))
    : dict key nat * list key :=
  let keys := restricted_keys_generator sch restr parts in
  (fold_left (fun cache ik => dset key_eqb (snd ik) (fst ik) cache) (enumerate keys) [], keys).

(** The body of the inner loop of get_nearest_key, utg/logic.py:93-96:
    [if key_property == available_key_property: current_similarity += (1 + 0.01 * index)]
    over [enumerate(zip(key, available_key))]; [acc] is current_similarity, [index] the position. *)
Fixpoint similarity_from (index : nat) (acc : spec_float) (k a : key) : spec_float :=
  match k, a with
  | x :: k', y :: a' =>
      similarity_from (S index)
        (if opt_eqb prop_eqb x y
         then f_add acc (f_add (f_of_Z 1) (f_mul f_0_01 (f_of_Z (Z.of_nat index))))
         else acc)
        k' a'
  | _, _ => acc
  end.
Definition similarity (k a : key) : spec_float := similarity_from 0 (f_of_Z 0) k a.

(** get_nearest_key, utg/logic.py:87-102; state of the loop: (best_key, best_similarity) *)
Definition nearest_step (k : key) (best : option key * spec_float) (a : key)
    : option key * spec_float :=
  let s := similarity k a in
  if f_gt s (snd best) then (Some a, s) else best.
Definition get_nearest_key (k : key) (available_keys : list key) : option key :=
  fst (fold_left (nearest_step k) available_keys (None, f_of_Z (-1))).

(** _raw_keys_generator, utg/logic.py:105-122.  [schema[0]] of an exhausted schema would raise
    IndexError in Python; keys and schema always have equal length (theorem), here it yields nothing. *)
Fixpoint raw_keys_generator (k : key) (sch : list relation) : list key :=
  match k with
  | [] => [[]]
  | key_head :: key_tail =>
      match sch with
      | [] => []
      | schema_head :: schema_tail =>
          match key_head with
          | Some p => map (cons (Some p)) (raw_keys_generator key_tail schema_tail)
          | None => flat_map (fun h => map (cons (Some h)) (raw_keys_generator key_tail schema_tail))
                             (records schema_head)
          end
      end
  end.

(** _full_keys_generator, utg/logic.py:125-134 *)
Fixpoint full_keys_generator (sch : list relation) : list key :=
  match sch with
  | [] => [[]]
  | h :: t => flat_map (fun r => map (cons (Some r)) (full_keys_generator t)) (records h)
  end.

(** first loop of _get_raw_cache, utg/logic.py:140-143 *)
Definition raw_cache_phase1 (keys : list key) (sch : list relation) : dict key nat :=
  fold_left (fun cache ik =>
    fold_left (fun cache' raw => dset key_eqb raw (fst ik) cache') (raw_keys_generator (snd ik) sch) cache)
  (enumerate keys) [].

(** body of the second loop of _get_raw_cache, utg/logic.py:146-151;
    [cache[nearest_key]] raises KeyError when nearest_key is None (empty cache) *)
Definition raw_cache_fill (cache : dict key nat) (k : key) : result (dict key nat) :=
  if dmem key_eqb k cache then Ok cache
  else match get_nearest_key k (dkeys cache) with
       | None => Err KeyError
       | Some nk => match dget key_eqb nk cache with
                    | None => Err KeyError
                    | Some i => Ok (dset key_eqb k i cache)
                    end
       end.

Fixpoint foldM {A B} (f : A -> B -> result A) (l : list B) (a : A) : result A :=
  match l with
  | [] => Ok a
  | b :: l' => a' <- f a b ;; foldM f l' a'
  end.

(** _get_raw_cache, utg/logic.py:137-153 *)
Definition get_raw_cache (keys : list key) (sch : list relation) : result (dict key nat) :=
  foldM raw_cache_fill (full_keys_generator sch) (raw_cache_phase1 keys sch).
