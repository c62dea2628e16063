(** * SpecRelevance: which groups of properties a printed text can depend on *)
From Verif Require Import PyBase Relations Restrictions Logic Data Words Templates SpecProps SpecAgreement SpecSubstitution.

(** the groups the printed form of a word of type t can depend on: those the word changes by and the size of the first letter;
    if it depends on an integer (one of the words ms), also those that numeral government looks at *)
Inductive relevant (t : word_type) (ms : list wordform) : relation -> Prop :=
  | rel_schema g : In g (schema t) -> relevant t ms g
  | rel_letter : relevant t ms R_WORD_CASE
  | rel_noun g : Exists is_integer ms -> noun_like t -> In g [R_DEPENDENCY_MODE; R_INTEGER_FORM; R_CASE; R_ANIMALITY] -> relevant t ms g
  | rel_adjective g : Exists is_integer ms -> adjective_like t -> In g [R_DEPENDENCY_MODE; R_INTEGER_FORM; R_CASE; R_GENDER] -> relevant t ms g.
