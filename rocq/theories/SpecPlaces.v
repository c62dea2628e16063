(** * SpecPlaces: where each form of a word stands in its list of forms ("the order matters", README) *)
From Verif Require Import PyBase Relations.

Definition case_no (c : prop) : nat :=
  match c with CASE_NOMINATIVE => 0 | CASE_GENITIVE => 1 | CASE_DATIVE => 2 | CASE_ACCUSATIVE => 3 | CASE_INSTRUMENTAL => 4 | CASE_PREPOSITIONAL => 5 | _ => 0 end.
Definition gender_no (g : prop) : nat := match g with GENDER_MASCULINE => 0 | GENDER_NEUTER => 1 | GENDER_FEMININE => 2 | _ => 0 end.
Definition person_no (p : prop) : nat := match p with PERSON_FIRST => 0 | PERSON_SECOND => 1 | PERSON_THIRD => 2 | _ => 0 end.
Definition animality_no (a : prop) : nat := match a with ANIMALITY_ANIMATE => 0 | ANIMALITY_INANIMATE => 1 | _ => 0 end.
Definition time_no (t : prop) : nat := match t with TIME_PAST => 0 | TIME_PRESENT => 1 | TIME_FUTURE => 2 | _ => 0 end.

(** 24 forms of a declension with genders: for each animality, the singular (by case, then gender), then the plural (by case) *)
Inductive declined : prop -> prop -> prop -> prop -> nat -> Prop :=
  | declined_singular a c g : declined a NUMBER_SINGULAR c g (24 * animality_no a + 3 * case_no c + gender_no g)
  | declined_plural a c g : declined a NUMBER_PLURAL c g (24 * animality_no a + 18 + case_no c).
(** 4 short forms: singular by gender, plural *)
Inductive short : prop -> prop -> nat -> Prop :=
  | short_singular g : short NUMBER_SINGULAR g (gender_no g)
  | short_plural g : short NUMBER_PLURAL g 3.

(** [place t c i]: a word of type t answers a request for the combination c of properties (in the order of the type's schema) with the
    form number i *)
Inductive place : word_type -> list prop -> nat -> Prop :=
  (* 18 forms: singular, plural, countable plural; the countable singular is the singular *)
  | noun_singular nf c : place WT_NOUN [nf; NUMBER_SINGULAR; c] (case_no c)
  | noun_plural c : place WT_NOUN [NOUN_FORM_NORMAL; NUMBER_PLURAL; c] (6 + case_no c)
  | noun_countable c : place WT_NOUN [NOUN_FORM_COUNTABLE; NUMBER_PLURAL; c] (12 + case_no c)
  (* 101 forms: 48 positive, 1 comparative, 48 superlative, 4 short *)
  | adjective_positive a n c g i : declined a n c g i -> place WT_ADJECTIVE [ADJECTIVE_FORM_FULL; GRADE_POSITIVE; a; n; c; g] i
  | adjective_comparative a n c g : place WT_ADJECTIVE [ADJECTIVE_FORM_FULL; GRADE_COMPARATIVE; a; n; c; g] 48
  | adjective_superlative a n c g i : declined a n c g i -> place WT_ADJECTIVE [ADJECTIVE_FORM_FULL; GRADE_SUPERLATIVE; a; n; c; g] (49 + i)
  | adjective_short gr a n c g i : short n g i -> place WT_ADJECTIVE [ADJECTIVE_FORM_SHORT; gr; a; n; c; g] (97 + i)
  (* 48 forms *)
  | pronoun_any a n c g i : declined a n c g i -> place WT_PRONOUN [a; n; c; g] i
  (* 20 forms: infinitive; past: singular by gender, plural; present, future: by number, then person; imperative: 2nd person singular, 1st and
     2nd person plural.  An imperative of another person is answered with the infinitive *)
  | verb_infinitive t n p g : place WT_VERB [VERB_FORM_INFINITIVE; t; n; p; g] 0
  | verb_past n p g i : short n g i -> place WT_VERB [VERB_FORM_INDICATIVE; TIME_PAST; n; p; g] (1 + i)
  | verb_singular t p g : t <> TIME_PAST -> place WT_VERB [VERB_FORM_INDICATIVE; t; NUMBER_SINGULAR; p; g] (6 * time_no t - 1 + person_no p)
  | verb_plural t p g : t <> TIME_PAST -> place WT_VERB [VERB_FORM_INDICATIVE; t; NUMBER_PLURAL; p; g] (6 * time_no t + 2 + person_no p)
  | verb_do t g : place WT_VERB [VERB_FORM_IMPERATIVE; t; NUMBER_SINGULAR; PERSON_SECOND; g] 17
  | verb_let_us t g : place WT_VERB [VERB_FORM_IMPERATIVE; t; NUMBER_PLURAL; PERSON_FIRST; g] 18
  | verb_do_all t g : place WT_VERB [VERB_FORM_IMPERATIVE; t; NUMBER_PLURAL; PERSON_SECOND; g] 19
  | verb_no_imperative t n p g : p = PERSON_THIRD \/ (p = PERSON_FIRST /\ n = NUMBER_SINGULAR) -> place WT_VERB [VERB_FORM_IMPERATIVE; t; n; p; g] 0
  (* 148 forms: 48 for each of the three tenses, 4 short *)
  | participle_full t a n c g i : declined a n c g i -> place WT_PARTICIPLE [PARTICIPLE_FORM_FULL; t; a; n; c; g] (48 * time_no t + i)
  | participle_short t a n c g i : short n g i -> place WT_PARTICIPLE [PARTICIPLE_FORM_SHORT; t; a; n; c; g] (144 + i)
  | integer_only : place WT_INTEGER [] 0
  | text_only : place WT_TEXT [] 0
  | preposition_normal : place WT_PREPOSITION [PREPOSITION_FORM_NORMAL] 0
  | preposition_alternative : place WT_PREPOSITION [PREPOSITION_FORM_ALTERNATIVE] 1
  | preposition_special : place WT_PREPOSITION [PREPOSITION_FORM_SPECIAL] 2.
(** the length of the list of forms *)
Definition list_length (t : word_type) : nat :=
  match t with WT_NOUN => 18 | WT_ADJECTIVE => 101 | WT_PRONOUN => 48 | WT_VERB => 20 | WT_PARTICIPLE => 148 | WT_INTEGER => 1 | WT_TEXT => 1 | WT_PREPOSITION => 3 end.
