(** * SpecIdentifiers: the table of property identifiers in the README, "Свойства слов" (README.rst:141-320), group by group, in its order;
    the record of each identifier is the one whose name translates the README's description *)
From Verif Require Import PyBase Relations Words Templates SpecProps SpecTemplates.

Definition documented : list (relation * list (str * prop)) :=
  [(R_ASPECT, [(u "несов", ASPECT_IMPERFECTIVE); (u "сов", ASPECT_PERFECTIVE)]);
   (R_DEPENDENCY_MODE, [(u "пзв", DEPENDENCY_MODE_FULL); (u "сзв", DEPENDENCY_MODE_SEMANTIC)]);
   (R_INTEGER_FORM, [(u "цо", INTEGER_FORM_SINGULAR); (u "цд", INTEGER_FORM_DUAL); (u "цсд", INTEGER_FORM_COMPOSITE_DUAL); (u "цост", INTEGER_FORM_PLURAL); (u "цмм", INTEGER_FORM_MIL_BIL)]);
   (R_TIME, [(u "прш", TIME_PAST); (u "нст", TIME_PRESENT); (u "буд", TIME_FUTURE)]);
   (R_VOICE, [(u "прям", VOICE_DIRECT); (u "взв", VOICE_REVERSE)]);
   (R_PRONOUN_CATEGORY, [(u "личн", PRONOUN_CATEGORY_PERSONAL); (u "возвр", PRONOUN_CATEGORY_REFLEXIVE); (u "притяж", PRONOUN_CATEGORY_POSSESSIVE); (u "вопр", PRONOUN_CATEGORY_INTERROGATIVE); (u "относ", PRONOUN_CATEGORY_RELATIVE); (u "указат", PRONOUN_CATEGORY_DEMONSTRATIVE); (u "опред", PRONOUN_CATEGORY_ATTRIBUTIVE); (u "отриц", PRONOUN_CATEGORY_NEGATIVE); (u "неопр", PRONOUN_CATEGORY_VAGUE); (u "взаимн", PRONOUN_CATEGORY_MUTUAL)]);
   (R_ADJECTIVE_CATEGORY, [(u "кач", ADJECTIVE_CATEGORY_QUALITY); (u "отн", ADJECTIVE_CATEGORY_RELATIVE); (u "прит", ADJECTIVE_CATEGORY_POSSESSIVE)]);
   (R_PERSON, [(u "1л", PERSON_FIRST); (u "2л", PERSON_SECOND); (u "3л", PERSON_THIRD)]);
   (R_ANIMALITY, [(u "од", ANIMALITY_ANIMATE); (u "но", ANIMALITY_INANIMATE)]);
   (R_CASE, [(u "им", CASE_NOMINATIVE); (u "рд", CASE_GENITIVE); (u "дт", CASE_DATIVE); (u "вн", CASE_ACCUSATIVE); (u "тв", CASE_INSTRUMENTAL); (u "пр", CASE_PREPOSITIONAL)]);
   (R_WORD_CASE, [(u "строч", WORD_CASE_LOWER); (u "загл", WORD_CASE_UPPER)]);
   (R_GENDER, [(u "мр", GENDER_MASCULINE); (u "ср", GENDER_NEUTER); (u "жр", GENDER_FEMININE)]);
   (R_GRADE, [(u "пол", GRADE_POSITIVE); (u "сравн", GRADE_COMPARATIVE); (u "прев", GRADE_SUPERLATIVE)]);
   (R_VERB_FORM, [(u "инф", VERB_FORM_INFINITIVE); (u "изъяв", VERB_FORM_INDICATIVE); (u "пов", VERB_FORM_IMPERATIVE)]);
   (R_PREPOSITION_FORM, [(u "осн", PREPOSITION_FORM_NORMAL); (u "алт", PREPOSITION_FORM_ALTERNATIVE); (u "спц", PREPOSITION_FORM_SPECIAL)]);
   (R_ADJECTIVE_FORM, [(u "полнприл", ADJECTIVE_FORM_FULL); (u "крприл", ADJECTIVE_FORM_SHORT)]);
   (R_PARTICIPLE_FORM, [(u "полнприч", PARTICIPLE_FORM_FULL); (u "крприч", PARTICIPLE_FORM_SHORT)]);
   (R_NOUN_FORM, [(u "нс", NOUN_FORM_NORMAL); (u "счт", NOUN_FORM_COUNTABLE)]);
   (R_WORD_TYPE, [(u "сущ", P_WORD_TYPE WT_NOUN); (u "прил", P_WORD_TYPE WT_ADJECTIVE); (u "мест", P_WORD_TYPE WT_PRONOUN); (u "гл", P_WORD_TYPE WT_VERB); (u "прич", P_WORD_TYPE WT_PARTICIPLE); (u "целое", P_WORD_TYPE WT_INTEGER); (u "текст", P_WORD_TYPE WT_TEXT); (u "предл", P_WORD_TYPE WT_PREPOSITION)]);
   (R_NUMBER, [(u "ед", NUMBER_SINGULAR); (u "мн", NUMBER_PLURAL)])].
(** the identifier x means the property p *)
Definition means (x : str) (p : prop) : Prop := exists g l, In (g, l) documented /\ In (x, p) l.
(** a list of identifiers specifies v for the group g: v is meant by an element, and no later element means something of this group *)
Definition list_specifies (elements : list str) (g : relation) (v : prop) : Prop :=
  exists before x after, elements = before ++ x :: after /\ means x v /\ rel_of v = g /\ forall y w, In y after -> means y w -> rel_of w <> g.
