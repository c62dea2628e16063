(** * SpecAgreement: the grammar tables of numeral government and of preposition forms *)
From Verif Require Import PyBase Relations Restrictions Logic Data Words SpecProps.

(** the value of a group in a Properties object: the specified one, else the default *)
Definition value (p : props) (g : relation) (v : prop) : Prop := value_from [p] g (Some v).

(** ** numerals.  [noun_row mode form case animality noun_form number case']: a noun in the given case, counted by a numeral of the
    given form, is used in noun_form, number, case' *)
Definition direct_case (c : prop) : Prop := c = CASE_NOMINATIVE \/ c = CASE_ACCUSATIVE.
Inductive noun_row : prop -> prop -> prop -> prop -> prop -> prop -> prop -> Prop :=
  (* agreement in meaning only: the case stays *)
  | nr_semantic_one c a : noun_row DEPENDENCY_MODE_SEMANTIC INTEGER_FORM_SINGULAR c a NOUN_FORM_NORMAL NUMBER_SINGULAR c
  | nr_semantic_many i c a : i <> INTEGER_FORM_SINGULAR -> noun_row DEPENDENCY_MODE_SEMANTIC i c a NOUN_FORM_NORMAL NUMBER_PLURAL c
  (* 1, 21, 31: one coin *)
  | nr_one c a : noun_row DEPENDENCY_MODE_FULL INTEGER_FORM_SINGULAR c a NOUN_FORM_NORMAL NUMBER_SINGULAR c
  (* 2, 3, 4: genitive singular, also in the accusative of inanimate nouns *)
  | nr_dual_nominative a : noun_row DEPENDENCY_MODE_FULL INTEGER_FORM_DUAL CASE_NOMINATIVE a NOUN_FORM_NORMAL NUMBER_SINGULAR CASE_GENITIVE
  | nr_dual_accusative : noun_row DEPENDENCY_MODE_FULL INTEGER_FORM_DUAL CASE_ACCUSATIVE ANIMALITY_INANIMATE NOUN_FORM_NORMAL NUMBER_SINGULAR CASE_GENITIVE
  | nr_dual_animate : noun_row DEPENDENCY_MODE_FULL INTEGER_FORM_DUAL CASE_ACCUSATIVE ANIMALITY_ANIMATE NOUN_FORM_COUNTABLE NUMBER_PLURAL CASE_ACCUSATIVE
  | nr_dual_oblique c a : ~ direct_case c -> noun_row DEPENDENCY_MODE_FULL INTEGER_FORM_DUAL c a NOUN_FORM_COUNTABLE NUMBER_PLURAL c
  (* 22, 33, 104 *)
  | nr_composite_direct c a : direct_case c -> noun_row DEPENDENCY_MODE_FULL INTEGER_FORM_COMPOSITE_DUAL c a NOUN_FORM_NORMAL NUMBER_SINGULAR CASE_GENITIVE
  | nr_composite_oblique c a : ~ direct_case c -> noun_row DEPENDENCY_MODE_FULL INTEGER_FORM_COMPOSITE_DUAL c a NOUN_FORM_COUNTABLE NUMBER_PLURAL c
  (* 5, 11, 30 *)
  | nr_plural_direct c a : direct_case c -> noun_row DEPENDENCY_MODE_FULL INTEGER_FORM_PLURAL c a NOUN_FORM_COUNTABLE NUMBER_PLURAL CASE_GENITIVE
  | nr_plural_oblique c a : ~ direct_case c -> noun_row DEPENDENCY_MODE_FULL INTEGER_FORM_PLURAL c a NOUN_FORM_COUNTABLE NUMBER_PLURAL c
  (* a million, a billion: always the genitive plural *)
  | nr_million c a : noun_row DEPENDENCY_MODE_FULL INTEGER_FORM_MIL_BIL c a NOUN_FORM_COUNTABLE NUMBER_PLURAL CASE_GENITIVE.

(** the same for adjectives, participles and verbs: [adjective_row mode form case gender number case'] *)
Inductive adjective_row : prop -> prop -> prop -> prop -> prop -> prop -> Prop :=
  | ar_semantic_one c g : adjective_row DEPENDENCY_MODE_SEMANTIC INTEGER_FORM_SINGULAR c g NUMBER_SINGULAR c
  | ar_semantic_many i c g : i <> INTEGER_FORM_SINGULAR -> adjective_row DEPENDENCY_MODE_SEMANTIC i c g NUMBER_PLURAL c
  | ar_one c g : adjective_row DEPENDENCY_MODE_FULL INTEGER_FORM_SINGULAR c g NUMBER_SINGULAR c
  (* two golden coins: genitive plural, but nominative plural for feminine words *)
  | ar_dual_direct c g : direct_case c -> g <> GENDER_FEMININE -> adjective_row DEPENDENCY_MODE_FULL INTEGER_FORM_DUAL c g NUMBER_PLURAL CASE_GENITIVE
  | ar_dual_feminine c : direct_case c -> adjective_row DEPENDENCY_MODE_FULL INTEGER_FORM_DUAL c GENDER_FEMININE NUMBER_PLURAL CASE_NOMINATIVE
  | ar_dual_oblique c g : ~ direct_case c -> adjective_row DEPENDENCY_MODE_FULL INTEGER_FORM_DUAL c g NUMBER_PLURAL c
  | ar_composite_direct c g : direct_case c -> adjective_row DEPENDENCY_MODE_FULL INTEGER_FORM_COMPOSITE_DUAL c g NUMBER_SINGULAR CASE_GENITIVE
  | ar_composite_oblique c g : ~ direct_case c -> adjective_row DEPENDENCY_MODE_FULL INTEGER_FORM_COMPOSITE_DUAL c g NUMBER_PLURAL c
  | ar_plural_direct c g : direct_case c -> adjective_row DEPENDENCY_MODE_FULL INTEGER_FORM_PLURAL c g NUMBER_PLURAL CASE_GENITIVE
  | ar_plural_oblique c g : ~ direct_case c -> adjective_row DEPENDENCY_MODE_FULL INTEGER_FORM_PLURAL c g NUMBER_PLURAL c
  | ar_million c g : adjective_row DEPENDENCY_MODE_FULL INTEGER_FORM_MIL_BIL c g NUMBER_PLURAL CASE_GENITIVE.

(** the word types that agree with a numeral *)
Definition noun_like (t : word_type) : Prop := t = WT_NOUN \/ t = WT_PRONOUN.
Definition adjective_like (t : word_type) : Prop := t = WT_ADJECTIVE \/ t = WT_PARTICIPLE \/ t = WT_VERB.

(** q is p with the value v for the group of v *)
Definition changed (p q : props) (v : prop) : Prop :=
  forall g w, holds q g w <-> (g = rel_of v /\ w = v) \/ (g <> rel_of v /\ holds p g w).

(** ** prepositions *)
(** the Russian consonant letters, with the two signs and й, in both cases *)
Definition consonant (c : char) : Prop := In c (u "бвгджзйклмнпрстфхцчшщъьБВГДЖЗЙКЛМНПРСТФХЦЧШЩЪЬ").
(** the text begins with two consonants (or is one consonant) *)
Definition cluster (text : str) : Prop :=
  match text with
  | [] => False
  | [c] => consonant c
  | c :: d :: _ => consonant c /\ consonant d
  end.
(** [alternative slave master w]: the preposition with the normal form slave takes its alternative form (во, ко, об) before
    the text master of the word w; [special]: the special form (обо) *)
Definition special (slave master : str) : Prop :=
  slave = u "о" /\ In master [u "всех"; u "мне"; u "всём"; u "что"; u "всей"].
Definition alternative (slave master : str) (w : word) : Prop :=
  exists s last first rest, slave = s ++ [last] /\ master = first :: rest /\
  ((consonant last /\ cluster master /\ number_of_syllables w = Ok 1 /\ has_fluent_vowel w = Ok true) \/
   (consonant last /\ cluster master /\ (slave = u "в" \/ slave = u "с") /\ slave = [first]) \/
   (~ consonant last /\ ~ special slave master /\ In first (u "аиоуыэАИОУЫЭ"))).
