(** * SpecMigrations: vocabulary for the statements about migrations *)
From Coq Require Import Permutation.
From Verif Require Import PyBase Relations Restrictions Logic Data Words SpecProps SpecSlots Migrations.

(** a table of slots: distinct keys numbered 0, 1, ..., n-1 (in any order) *)
Definition numbering (table : dict key nat) : Prop :=
  NoDup (dkeys table) /\ Permutation (map snd table) (seq 0 (length table)).

(** there is a form for every slot of the table *)
Definition fits (table : dict key nat) (forms : list str) : Prop := forall k j, In (k, j) table -> j < length forms.

(** all keys of the table have the same number of elements, at most 1000 *)
Definition uniform (table : dict key nat) : Prop := exists n, n <= 1000 /\ forall k j, In (k, j) table -> length k = n.

(** everything but the forms is the same *)
Definition same_but_forms (d d' : mdata) : Prop :=
  md_type d' = md_type d /\ md_props d' = md_props d /\ md_patches d' = md_patches d.

(** the serialized word (word_data without patches) as Word.deserialize sees it *)
Definition as_word_data (d : mdata) : word_data :=
  {| wd_type := md_type d; wd_forms := md_forms d; wd_props := map (fun kv => (JStr (fst kv), snd kv)) (md_props d) |}.
(** all keys of the 'properties' dict are texts of integers *)
Definition integer_properties (d : mdata) : Prop := forall s v, In (s, v) (md_props d) -> exists z, int_text s z.

(** the key of the same form before m_0008: animality was the last element of the keys of adjectives and participles *)
Definition before_m8 (k : key) : key :=
  match k with [form; grade; animality; number; case; gender] => [form; grade; number; case; gender; animality] | _ => k end.
(** the key of the form of a pronoun before m_0009: (number, case, person, gender); the third person was kept *)
Definition third_person (k : key) : key :=
  match k with [_; number; case; gender] => [number; case; Some PERSON_THIRD; gender] | _ => k end.

(** the slot of the comparative of an adjective *)
Definition comparative_slot : key := [Some ADJECTIVE_FORM_FULL; Some GRADE_COMPARATIVE; None; None; None; None].

(** two keys have equal elements at exactly n positions *)
Definition agreements (a b : key) (n : nat) : Prop :=
  exists l, NoDup l /\ length l = n /\ forall p, In p l <-> exists x, nth_error a p = Some x /\ nth_error b p = Some x.
