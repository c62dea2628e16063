(** * SpecChosen: printed texts are texts somebody chose - the forms of words; which form is printed does not depend on its letters *)
From Verif Require Import PyBase Relations Logic Data Words Dictionary Templates SpecTemplates.

(** the slot number i of the word, its first letter made upper-case if [up]: there is no first letter of an empty form *)
Definition prints_slot (U : unicode) (w : word) (i : nat) (up : bool) (r : result str) : Prop :=
  exists form, nth_error (w_forms w) i = Some form /\
  r = if up then match form with [] => Err IndexError | c :: rest => Ok (u_upper U c ++ rest) end else Ok form.
(** the text is one of the forms of the word as it is, or with its first letter made upper-case *)
Definition printed_form (U : unicode) (w : word) (x : str) : Prop := exists i up, prints_slot U w i up (Ok x).

(** what the name stands for: the external, else the word form the dictionary finds by this text *)
Definition stands_for (ext : externals) (d : dictionary) (name : str) (f : wordform) : Prop :=
  In (name, f) ext \/ ~ In name (dkeys ext) /\ get_word d name = Ok f.

(** the same grammar, other letters: the part of speech, the number of forms and all the properties agree *)
Definition same_grammar (f f' : wordform) : Prop :=
  w_type (wf_word f) = w_type (wf_word f') /\ w_props (wf_word f) = w_props (wf_word f') /\
  length (w_forms (wf_word f)) = length (w_forms (wf_word f')) /\
  wf_props f = wf_props f' /\ wf_form_props f = wf_form_props f'.
(** the names stand for word forms with the same grammar *)
Definition renamed (ext ext' : externals) : Prop := Forall2 (fun a b => fst a = fst b /\ same_grammar (snd a) (snd b)) ext ext'.
(** the text finds word forms with the same grammar in both dictionaries, or the same error *)
Definition same_grammar_entry (d d' : dictionary) (text : str) : Prop :=
  match get_word d text, get_word d' text with
  | Ok f, Ok f' => same_grammar f f'
  | Err e, Err e' => e = e'
  | _, _ => False
  end.
(** the base word of the variable is not a preposition: the form of a preposition does depend on the letters of its neighbour *)
Definition no_preposition (s : substitution) (ext : externals) (d : dictionary) : Prop :=
  forall f, stands_for ext d (s_id s) f -> w_type (wf_word f) <> WT_PREPOSITION.

(** the variable prints the slot of the choice *)
Definition prints_choice (U : unicode) (ext : externals) (d : dictionary) (s : substitution) (choice : nat * bool) (x : str) : Prop :=
  exists f, stands_for ext d (s_id s) f /\ prints_slot U (wf_word f) (fst choice) (snd choice) (Ok x).
