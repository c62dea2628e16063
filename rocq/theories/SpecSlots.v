(** * SpecSlots: vocabulary for the statements about slots (the numbered forms of a word) *)
From Verif Require Import PyBase Relations Restrictions Logic Data Words SpecProps.

(** [restricted_by restr p g]: the table declares the group g meaningless beside the property p *)
Definition restricted_by (restr : restr_table) (p : prop) (g : relation) : Prop :=
  exists gs, dget prop_eqb p restr = Some gs /\ In g gs.

(** a key obeying the restrictions: one entry per group of the schema; the entry is empty exactly when a property
    at an earlier position restricts the group, and otherwise one of the records of the group *)
Definition slot_key (restr : restr_table) (sch : list relation) (k : key) : Prop :=
  length k = length sch /\
  forall i g o, nth_error sch i = Some g -> nth_error k i = Some o ->
    (o = None <-> exists j p, j < i /\ nth_error k j = Some (Some p) /\ restricted_by restr p g) /\
    (forall p, o = Some p -> In p (records g)).

(** the key contains all properties of one of the banned parts *)
Definition banned (parts : list (list prop)) (k : key) : Prop :=
  exists part, In part parts /\ forall p, In p part -> In (Some p) k.

(** x is declared before y in the list l *)
Definition before {A} (l : list A) (x y : A) : Prop := exists l1 l2 l3, l = l1 ++ x :: l2 ++ y :: l3.
(** lexicographic order of keys by the declaration order of the records: at the first difference a has the
    record that is declared first *)
Definition key_before (sch : list relation) (a b : key) : Prop :=
  exists i g x y, firstn i a = firstn i b /\ nth_error sch i = Some g /\
    nth_error a i = Some (Some x) /\ nth_error b i = Some (Some y) /\ before (records g) x y.

(** a full combination of records for a schema *)
Definition combination (sch : list relation) (c : list prop) : Prop := Forall2 (fun g p => In p (records g)) sch c.
(** a combination agrees with a key on the non-empty entries of the key *)
Definition agrees (c : list prop) (k : key) : Prop := Forall2 (fun p o => o = None \/ o = Some p) c k.

(** the slot number i of the word type t has the key k *)
Definition slot (t : word_type) (i : nat) (k : key) : Prop := nth_error (INVERTED_WORDS_CACHES t) i = Some k.

(** ** similarity of keys *)
(** positions (starting from i) at which both keys have an element and the elements are equal *)
Fixpoint matching (i : nat) (k a : key) : list nat :=
  match k, a with
  | x :: k', y :: a' => (if opt_eqb prop_eqb x y then [i] else []) ++ matching (S i) k' a'
  | _, _ => []
  end.
Definition match_count (k a : key) : nat := length (matching 0 k a).
Definition match_sum (k a : key) : nat := list_sum (matching 0 k a).

(** of two combinations a is at least as similar to c as b is: more matching elements, or equally many and the sum
    of the matching positions (later groups weigh more) is not smaller *)
Definition at_least_as_similar (c a b : key) : Prop :=
  match_count c b < match_count c a \/ (match_count c a = match_count c b /\ match_sum c b <= match_sum c a).

(** ** lookup *)
(** the combination requested from the word w by the properties p: for each group of the schema the value fixed by
    the word, else the value in p, else the default *)
Definition requested (w : word) (p : props) (c : list prop) : Prop :=
  Forall2 (fun g v => value_from [w_props w; p] g (Some v)) (schema (w_type w)) c.
