(** * SpecPrepositions: which form of a preposition is printed when a variable depends on several externals *)
From Verif Require Import PyBase Relations Words Dictionary Templates SpecProps SpecAgreement SpecSubstitution.

(** the external m asks the preposition with the normal form [slave] for its alternative (во, об) or special (обо) form: the rules of
    SpecAgreement for the text of m - its own form, [WordForm.form], wherever and however m is printed *)
Inductive asks (U : unicode) (slave : str) (m : wordform) : prop -> Prop :=
  | asks_special master : wf_form U m = Ok master -> special slave master -> asks U slave m PREPOSITION_FORM_SPECIAL
  | asks_alternative master : wf_form U m = Ok master -> alternative slave master (wf_word m) -> asks U slave m PREPOSITION_FORM_ALTERNATIVE.
(** the last of the externals ms that asks for a form gets it; if none asks, the form is v0 *)
Inductive preposition_form (U : unicode) (slave : str) (ms : list wordform) (v0 : prop) : prop -> Prop :=
  | nobody_asks : (forall m v, In m ms -> ~ asks U slave m v) -> preposition_form U slave ms v0 v0
  | last_asks ms1 m ms2 v : ms = ms1 ++ m :: ms2 -> asks U slave m v -> (forall m' v', In m' ms2 -> ~ asks U slave m' v') -> preposition_form U slave ms v0 v.
(** m has a text *)
Definition not_empty_form (U : unicode) (m : wordform) : Prop := exists master, wf_form U m = Ok master /\ master <> [].
