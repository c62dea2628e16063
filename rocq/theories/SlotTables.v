(** * SlotTables: the tables of slots in evaluated form, so that a slot is looked up in a literal list.  Proof engineering only. *)
From Verif Require Import PyBase Relations Restrictions Logic Data Words PyBaseFacts SpecProps SpecSlots SlotFacts LookupFacts.

Definition keys_of (t : word_type) : list key := Eval vm_compute in
  match t with
  | WT_NOUN => INVERTED_WORDS_CACHES WT_NOUN
  | WT_ADJECTIVE => INVERTED_WORDS_CACHES WT_ADJECTIVE
  | WT_PRONOUN => INVERTED_WORDS_CACHES WT_PRONOUN
  | WT_VERB => INVERTED_WORDS_CACHES WT_VERB
  | WT_PARTICIPLE => INVERTED_WORDS_CACHES WT_PARTICIPLE
  | WT_INTEGER => INVERTED_WORDS_CACHES WT_INTEGER
  | WT_TEXT => INVERTED_WORDS_CACHES WT_TEXT
  | WT_PREPOSITION => INVERTED_WORDS_CACHES WT_PREPOSITION
  end.
Lemma keys_of_ok t : INVERTED_WORDS_CACHES t = keys_of t.
Proof. destruct t; vm_compute; reflexivity. Qed.
Lemma slot_by_table t i k : nth_error (keys_of t) i = Some k -> slot t i k.
Proof. unfold slot. rewrite keys_of_ok. auto. Qed.

Definition index_of (t : word_type) (k : key) : nat := match dget key_eqb k (WORDS_CACHES t) with Some i => i | None => 0 end.
Lemma index_slot t k : existsb (key_eqb k) (keys_of t) = true -> slot t (index_of t k) k.
Proof.
  intro H. apply existsb_exists in H. destruct H as (k' & H & E). apply key_eqb_ok in E. subst k'. apply In_nth_error in H. destruct H as (i & H). apply slot_by_table in H.
  apply WORDS_CACHES_dget. assert (X := proj2 (WORDS_CACHES_dget t k i) H). unfold index_of. rewrite X. reflexivity.
Qed.
