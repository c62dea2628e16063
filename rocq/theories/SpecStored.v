(** * SpecStored: the format of stored words and templates, written down from utg/relations.py: the number of every part of speech, of every
    group of properties (PROPERTY_TYPE) and of every record *)
From Verif Require Import PyBase Relations Words Templates SpecProps.
Open Scope Z_scope.

Definition stored_groups : list (Z * list (Z * prop)) :=
  [(0, [(0, CASE_NOMINATIVE); (1, CASE_GENITIVE); (2, CASE_DATIVE); (3, CASE_ACCUSATIVE); (4, CASE_INSTRUMENTAL); (5, CASE_PREPOSITIONAL)]);
   (1, [(0, ANIMALITY_ANIMATE); (1, ANIMALITY_INANIMATE)]);
   (2, [(0, NUMBER_SINGULAR); (1, NUMBER_PLURAL)]);
   (3, [(0, GENDER_MASCULINE); (1, GENDER_NEUTER); (2, GENDER_FEMININE)]);
   (4, [(0, VERB_FORM_INFINITIVE); (1, VERB_FORM_INDICATIVE); (3, VERB_FORM_IMPERATIVE)]);
   (5, [(1, TIME_PAST); (2, TIME_PRESENT); (3, TIME_FUTURE)]);
   (6, [(0, PERSON_FIRST); (1, PERSON_SECOND); (2, PERSON_THIRD)]);
   (7, [(0, ASPECT_IMPERFECTIVE); (1, ASPECT_PERFECTIVE)]);
   (9, [(0, ADJECTIVE_CATEGORY_QUALITY); (1, ADJECTIVE_CATEGORY_RELATIVE); (2, ADJECTIVE_CATEGORY_POSSESSIVE)]);
   (10, [(0, GRADE_POSITIVE); (1, GRADE_COMPARATIVE); (2, GRADE_SUPERLATIVE)]);
   (11, [(0, PRONOUN_CATEGORY_PERSONAL); (1, PRONOUN_CATEGORY_REFLEXIVE); (2, PRONOUN_CATEGORY_POSSESSIVE); (3, PRONOUN_CATEGORY_INTERROGATIVE);
         (4, PRONOUN_CATEGORY_RELATIVE); (5, PRONOUN_CATEGORY_DEMONSTRATIVE); (6, PRONOUN_CATEGORY_ATTRIBUTIVE); (7, PRONOUN_CATEGORY_NEGATIVE);
         (8, PRONOUN_CATEGORY_VAGUE); (9, PRONOUN_CATEGORY_MUTUAL)]);
   (12, [(0, WORD_CASE_LOWER); (1, WORD_CASE_UPPER)]);
   (13, [(0, P_WORD_TYPE WT_NOUN); (1, P_WORD_TYPE WT_ADJECTIVE); (2, P_WORD_TYPE WT_PRONOUN); (3, P_WORD_TYPE WT_VERB); (4, P_WORD_TYPE WT_PARTICIPLE);
         (5, P_WORD_TYPE WT_INTEGER); (6, P_WORD_TYPE WT_TEXT); (10, P_WORD_TYPE WT_PREPOSITION)]);
   (14, [(0, INTEGER_FORM_SINGULAR); (1, INTEGER_FORM_DUAL); (2, INTEGER_FORM_COMPOSITE_DUAL); (3, INTEGER_FORM_PLURAL); (4, INTEGER_FORM_MIL_BIL)]);
   (15, [(0, VOICE_DIRECT); (1, VOICE_REVERSE)]);
   (16, [(0, PREPOSITION_FORM_NORMAL); (1, PREPOSITION_FORM_ALTERNATIVE); (2, PREPOSITION_FORM_SPECIAL)]);
   (17, [(0, ADJECTIVE_FORM_FULL); (1, ADJECTIVE_FORM_SHORT)]);
   (18, [(0, PARTICIPLE_FORM_FULL); (1, PARTICIPLE_FORM_SHORT)]);
   (19, [(0, NOUN_FORM_NORMAL); (1, NOUN_FORM_COUNTABLE)]);
   (20, [(0, DEPENDENCY_MODE_FULL); (1, DEPENDENCY_MODE_SEMANTIC)])].
(** the entry "g: v" of a stored dict means the record p *)
Definition stored_as (p : prop) (g v : Z) : Prop := exists l, In (g, l) stored_groups /\ In (v, p) l.

Inductive stored_type : word_type -> Z -> Prop :=
  | st_noun : stored_type WT_NOUN 0
  | st_adjective : stored_type WT_ADJECTIVE 1
  | st_pronoun : stored_type WT_PRONOUN 2
  | st_verb : stored_type WT_VERB 3
  | st_participle : stored_type WT_PARTICIPLE 4
  | st_integer : stored_type WT_INTEGER 5
  | st_text : stored_type WT_TEXT 6
  | st_preposition : stored_type WT_PREPOSITION 10.

(** what is written for properties: one entry for every specified value, with integer keys *)
Definition written_for (p : props) (d : dict jkey Z) : Prop :=
  NoDup (map fst d) /\ forall k v, In (k, v) d <-> exists g r q, holds p r q /\ stored_as q g v /\ k = JInt g.
(** what a stored dict means: for every group of properties the last entry that is known counts; everything unknown is ignored *)
Definition read_from (d : dict jkey Z) (p : props) : Prop :=
  forall r q, holds p r q <-> rel_of q = r /\
    exists before k g v after, d = before ++ (k, v) :: after /\ key_number k g /\ stored_as q g v /\
      forall k' g' v' q', In (k', v') after -> key_number k' g' -> stored_as q' g' v' -> rel_of q' <> r.
(** the dependencies of a stored template: a name is a text, properties are a dict *)
Definition dep_written (x : dependency) (y : sdep) : Prop :=
  match x, y with
  | DExt s, SStr t => s = t
  | DProps p, SDict d => written_for p d
  | _, _ => False
  end.
Definition dep_read (y : sdep) (x : dependency) : Prop :=
  match y, x with
  | SStr t, DExt s => s = t
  | SDict d, DProps p => read_from d p
  | _, _ => False
  end.
Definition integer_keys (d : dict jkey Z) : Prop := forall k v, In (k, v) d -> integer_key k.
