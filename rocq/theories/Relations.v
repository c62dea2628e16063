(** * Relations: utg/relations.py
    GENERATED from the text of /repo/utg/relations.py by tools/gen_relations.py; do not edit.
    A record of a rels relation is a constructor of [prop] (records of WORD_TYPE: of [word_type]);
    the human-readable [text] column is not modelled (nothing uses it). *)
From Verif Require Import PyBase.
Local Open Scope Z_scope.

(** Subclasses of WORD_PROPERTY in order of definition, utg/relations.py:10-126.
    [R_X] is the class X. *)
Inductive relation :=
  | R_CASE
  | R_ANIMALITY
  | R_NUMBER
  | R_GENDER
  | R_VERB_FORM
  | R_VOICE
  | R_TIME
  | R_PERSON
  | R_ASPECT
  | R_ADJECTIVE_CATEGORY
  | R_GRADE
  | R_PRONOUN_CATEGORY
  | R_INTEGER_FORM
  | R_NOUN_FORM
  | R_ADJECTIVE_FORM
  | R_PARTICIPLE_FORM
  | R_WORD_CASE
  | R_DEPENDENCY_MODE
  | R_PREPOSITION_FORM
  | R_WORD_TYPE.

(** Records of WORD_TYPE, utg/relations.py:119-126 *)
Inductive word_type :=
  | WT_NOUN
  | WT_ADJECTIVE
  | WT_PRONOUN
  | WT_VERB
  | WT_PARTICIPLE
  | WT_INTEGER
  | WT_TEXT
  | WT_PREPOSITION.

(** Records of all property relations: [CASE_DATIVE] is r.CASE.DATIVE. *)
Inductive prop :=
  (* utg/relations.py:11-16 *)
  | CASE_NOMINATIVE
  | CASE_GENITIVE
  | CASE_DATIVE
  | CASE_ACCUSATIVE
  | CASE_INSTRUMENTAL
  | CASE_PREPOSITIONAL
  (* utg/relations.py:20-21 *)
  | ANIMALITY_ANIMATE
  | ANIMALITY_INANIMATE
  (* utg/relations.py:24-25 *)
  | NUMBER_SINGULAR
  | NUMBER_PLURAL
  (* utg/relations.py:28-30 *)
  | GENDER_MASCULINE
  | GENDER_NEUTER
  | GENDER_FEMININE
  (* utg/relations.py:33-36 *)
  | VERB_FORM_INFINITIVE
  | VERB_FORM_INDICATIVE
  | VERB_FORM_IMPERATIVE
  (* utg/relations.py:39-40 *)
  | VOICE_DIRECT
  | VOICE_REVERSE
  (* utg/relations.py:43-45 *)
  | TIME_PAST
  | TIME_PRESENT
  | TIME_FUTURE
  (* utg/relations.py:48-50 *)
  | PERSON_FIRST
  | PERSON_SECOND
  | PERSON_THIRD
  (* utg/relations.py:53-54 *)
  | ASPECT_IMPERFECTIVE
  | ASPECT_PERFECTIVE
  (* utg/relations.py:57-59 *)
  | ADJECTIVE_CATEGORY_QUALITY
  | ADJECTIVE_CATEGORY_RELATIVE
  | ADJECTIVE_CATEGORY_POSSESSIVE
  (* utg/relations.py:62-64 *)
  | GRADE_POSITIVE
  | GRADE_COMPARATIVE
  | GRADE_SUPERLATIVE
  (* utg/relations.py:68-77 *)
  | PRONOUN_CATEGORY_PERSONAL
  | PRONOUN_CATEGORY_REFLEXIVE
  | PRONOUN_CATEGORY_POSSESSIVE
  | PRONOUN_CATEGORY_INTERROGATIVE
  | PRONOUN_CATEGORY_RELATIVE
  | PRONOUN_CATEGORY_DEMONSTRATIVE
  | PRONOUN_CATEGORY_ATTRIBUTIVE
  | PRONOUN_CATEGORY_NEGATIVE
  | PRONOUN_CATEGORY_VAGUE
  | PRONOUN_CATEGORY_MUTUAL
  (* utg/relations.py:81-85 *)
  | INTEGER_FORM_SINGULAR
  | INTEGER_FORM_DUAL
  | INTEGER_FORM_COMPOSITE_DUAL
  | INTEGER_FORM_PLURAL
  | INTEGER_FORM_MIL_BIL
  (* utg/relations.py:88-89 *)
  | NOUN_FORM_NORMAL
  | NOUN_FORM_COUNTABLE
  (* utg/relations.py:92-93 *)
  | ADJECTIVE_FORM_FULL
  | ADJECTIVE_FORM_SHORT
  (* utg/relations.py:96-97 *)
  | PARTICIPLE_FORM_FULL
  | PARTICIPLE_FORM_SHORT
  (* utg/relations.py:101-102 *)
  | WORD_CASE_LOWER
  | WORD_CASE_UPPER
  (* utg/relations.py:105-106 *)
  | DEPENDENCY_MODE_FULL
  | DEPENDENCY_MODE_SEMANTIC
  (* utg/relations.py:110-112 *)
  | PREPOSITION_FORM_NORMAL
  | PREPOSITION_FORM_ALTERNATIVE
  | PREPOSITION_FORM_SPECIAL
  | P_WORD_TYPE (t : word_type)  (* utg/relations.py:119-126 *).

(** record._relation *)
Definition rel_of (p : prop) : relation :=
  match p with
  | CASE_NOMINATIVE | CASE_GENITIVE | CASE_DATIVE | CASE_ACCUSATIVE | CASE_INSTRUMENTAL | CASE_PREPOSITIONAL => R_CASE
  | ANIMALITY_ANIMATE | ANIMALITY_INANIMATE => R_ANIMALITY
  | NUMBER_SINGULAR | NUMBER_PLURAL => R_NUMBER
  | GENDER_MASCULINE | GENDER_NEUTER | GENDER_FEMININE => R_GENDER
  | VERB_FORM_INFINITIVE | VERB_FORM_INDICATIVE | VERB_FORM_IMPERATIVE => R_VERB_FORM
  | VOICE_DIRECT | VOICE_REVERSE => R_VOICE
  | TIME_PAST | TIME_PRESENT | TIME_FUTURE => R_TIME
  | PERSON_FIRST | PERSON_SECOND | PERSON_THIRD => R_PERSON
  | ASPECT_IMPERFECTIVE | ASPECT_PERFECTIVE => R_ASPECT
  | ADJECTIVE_CATEGORY_QUALITY | ADJECTIVE_CATEGORY_RELATIVE | ADJECTIVE_CATEGORY_POSSESSIVE => R_ADJECTIVE_CATEGORY
  | GRADE_POSITIVE | GRADE_COMPARATIVE | GRADE_SUPERLATIVE => R_GRADE
  | PRONOUN_CATEGORY_PERSONAL | PRONOUN_CATEGORY_REFLEXIVE | PRONOUN_CATEGORY_POSSESSIVE | PRONOUN_CATEGORY_INTERROGATIVE | PRONOUN_CATEGORY_RELATIVE | PRONOUN_CATEGORY_DEMONSTRATIVE | PRONOUN_CATEGORY_ATTRIBUTIVE | PRONOUN_CATEGORY_NEGATIVE | PRONOUN_CATEGORY_VAGUE | PRONOUN_CATEGORY_MUTUAL => R_PRONOUN_CATEGORY
  | INTEGER_FORM_SINGULAR | INTEGER_FORM_DUAL | INTEGER_FORM_COMPOSITE_DUAL | INTEGER_FORM_PLURAL | INTEGER_FORM_MIL_BIL => R_INTEGER_FORM
  | NOUN_FORM_NORMAL | NOUN_FORM_COUNTABLE => R_NOUN_FORM
  | ADJECTIVE_FORM_FULL | ADJECTIVE_FORM_SHORT => R_ADJECTIVE_FORM
  | PARTICIPLE_FORM_FULL | PARTICIPLE_FORM_SHORT => R_PARTICIPLE_FORM
  | WORD_CASE_LOWER | WORD_CASE_UPPER => R_WORD_CASE
  | DEPENDENCY_MODE_FULL | DEPENDENCY_MODE_SEMANTIC => R_DEPENDENCY_MODE
  | PREPOSITION_FORM_NORMAL | PREPOSITION_FORM_ALTERNATIVE | PREPOSITION_FORM_SPECIAL => R_PREPOSITION_FORM
  | P_WORD_TYPE _ => R_WORD_TYPE
  end.

(** WORD_TYPE record.value *)
Definition wt_value (t : word_type) : Z :=
  match t with
  | WT_NOUN => 0
  | WT_ADJECTIVE => 1
  | WT_PRONOUN => 2
  | WT_VERB => 3
  | WT_PARTICIPLE => 4
  | WT_INTEGER => 5
  | WT_TEXT => 6
  | WT_PREPOSITION => 10
  end.

(** record.value *)
Definition value_of (p : prop) : Z :=
  match p with
  | CASE_NOMINATIVE => 0
  | CASE_GENITIVE => 1
  | CASE_DATIVE => 2
  | CASE_ACCUSATIVE => 3
  | CASE_INSTRUMENTAL => 4
  | CASE_PREPOSITIONAL => 5
  | ANIMALITY_ANIMATE => 0
  | ANIMALITY_INANIMATE => 1
  | NUMBER_SINGULAR => 0
  | NUMBER_PLURAL => 1
  | GENDER_MASCULINE => 0
  | GENDER_NEUTER => 1
  | GENDER_FEMININE => 2
  | VERB_FORM_INFINITIVE => 0
  | VERB_FORM_INDICATIVE => 1
  | VERB_FORM_IMPERATIVE => 3
  | VOICE_DIRECT => 0
  | VOICE_REVERSE => 1
  | TIME_PAST => 1
  | TIME_PRESENT => 2
  | TIME_FUTURE => 3
  | PERSON_FIRST => 0
  | PERSON_SECOND => 1
  | PERSON_THIRD => 2
  | ASPECT_IMPERFECTIVE => 0
  | ASPECT_PERFECTIVE => 1
  | ADJECTIVE_CATEGORY_QUALITY => 0
  | ADJECTIVE_CATEGORY_RELATIVE => 1
  | ADJECTIVE_CATEGORY_POSSESSIVE => 2
  | GRADE_POSITIVE => 0
  | GRADE_COMPARATIVE => 1
  | GRADE_SUPERLATIVE => 2
  | PRONOUN_CATEGORY_PERSONAL => 0
  | PRONOUN_CATEGORY_REFLEXIVE => 1
  | PRONOUN_CATEGORY_POSSESSIVE => 2
  | PRONOUN_CATEGORY_INTERROGATIVE => 3
  | PRONOUN_CATEGORY_RELATIVE => 4
  | PRONOUN_CATEGORY_DEMONSTRATIVE => 5
  | PRONOUN_CATEGORY_ATTRIBUTIVE => 6
  | PRONOUN_CATEGORY_NEGATIVE => 7
  | PRONOUN_CATEGORY_VAGUE => 8
  | PRONOUN_CATEGORY_MUTUAL => 9
  | INTEGER_FORM_SINGULAR => 0
  | INTEGER_FORM_DUAL => 1
  | INTEGER_FORM_COMPOSITE_DUAL => 2
  | INTEGER_FORM_PLURAL => 3
  | INTEGER_FORM_MIL_BIL => 4
  | NOUN_FORM_NORMAL => 0
  | NOUN_FORM_COUNTABLE => 1
  | ADJECTIVE_FORM_FULL => 0
  | ADJECTIVE_FORM_SHORT => 1
  | PARTICIPLE_FORM_FULL => 0
  | PARTICIPLE_FORM_SHORT => 1
  | WORD_CASE_LOWER => 0
  | WORD_CASE_UPPER => 1
  | DEPENDENCY_MODE_FULL => 0
  | DEPENDENCY_MODE_SEMANTIC => 1
  | PREPOSITION_FORM_NORMAL => 0
  | PREPOSITION_FORM_ALTERNATIVE => 1
  | PREPOSITION_FORM_SPECIAL => 2
  | P_WORD_TYPE t => wt_value t
  end.

(** record.verbose_id *)
Definition verbose_id (p : prop) : str :=
  match p with
  | CASE_NOMINATIVE => u "им"
  | CASE_GENITIVE => u "рд"
  | CASE_DATIVE => u "дт"
  | CASE_ACCUSATIVE => u "вн"
  | CASE_INSTRUMENTAL => u "тв"
  | CASE_PREPOSITIONAL => u "пр"
  | ANIMALITY_ANIMATE => u "од"
  | ANIMALITY_INANIMATE => u "но"
  | NUMBER_SINGULAR => u "ед"
  | NUMBER_PLURAL => u "мн"
  | GENDER_MASCULINE => u "мр"
  | GENDER_NEUTER => u "ср"
  | GENDER_FEMININE => u "жр"
  | VERB_FORM_INFINITIVE => u "инф"
  | VERB_FORM_INDICATIVE => u "изъяв"
  | VERB_FORM_IMPERATIVE => u "пов"
  | VOICE_DIRECT => u "прям"
  | VOICE_REVERSE => u "взв"
  | TIME_PAST => u "прш"
  | TIME_PRESENT => u "нст"
  | TIME_FUTURE => u "буд"
  | PERSON_FIRST => u "1л"
  | PERSON_SECOND => u "2л"
  | PERSON_THIRD => u "3л"
  | ASPECT_IMPERFECTIVE => u "несов"
  | ASPECT_PERFECTIVE => u "сов"
  | ADJECTIVE_CATEGORY_QUALITY => u "кач"
  | ADJECTIVE_CATEGORY_RELATIVE => u "отн"
  | ADJECTIVE_CATEGORY_POSSESSIVE => u "прит"
  | GRADE_POSITIVE => u "пол"
  | GRADE_COMPARATIVE => u "сравн"
  | GRADE_SUPERLATIVE => u "прев"
  | PRONOUN_CATEGORY_PERSONAL => u "личн"
  | PRONOUN_CATEGORY_REFLEXIVE => u "возвр"
  | PRONOUN_CATEGORY_POSSESSIVE => u "притяж"
  | PRONOUN_CATEGORY_INTERROGATIVE => u "вопр"
  | PRONOUN_CATEGORY_RELATIVE => u "относ"
  | PRONOUN_CATEGORY_DEMONSTRATIVE => u "указат"
  | PRONOUN_CATEGORY_ATTRIBUTIVE => u "опред"
  | PRONOUN_CATEGORY_NEGATIVE => u "отриц"
  | PRONOUN_CATEGORY_VAGUE => u "неопр"
  | PRONOUN_CATEGORY_MUTUAL => u "взаимн"
  | INTEGER_FORM_SINGULAR => u "цо"
  | INTEGER_FORM_DUAL => u "цд"
  | INTEGER_FORM_COMPOSITE_DUAL => u "цсд"
  | INTEGER_FORM_PLURAL => u "цост"
  | INTEGER_FORM_MIL_BIL => u "цмм"
  | NOUN_FORM_NORMAL => u "нс"
  | NOUN_FORM_COUNTABLE => u "счт"
  | ADJECTIVE_FORM_FULL => u "полнприл"
  | ADJECTIVE_FORM_SHORT => u "крприл"
  | PARTICIPLE_FORM_FULL => u "полнприч"
  | PARTICIPLE_FORM_SHORT => u "крприч"
  | WORD_CASE_LOWER => u "строч"
  | WORD_CASE_UPPER => u "загл"
  | DEPENDENCY_MODE_FULL => u "пзв"
  | DEPENDENCY_MODE_SEMANTIC => u "сзв"
  | PREPOSITION_FORM_NORMAL => u "осн"
  | PREPOSITION_FORM_ALTERNATIVE => u "алт"
  | PREPOSITION_FORM_SPECIAL => u "спц"
  | P_WORD_TYPE WT_NOUN => u "сущ"
  | P_WORD_TYPE WT_ADJECTIVE => u "прил"
  | P_WORD_TYPE WT_PRONOUN => u "мест"
  | P_WORD_TYPE WT_VERB => u "гл"
  | P_WORD_TYPE WT_PARTICIPLE => u "прич"
  | P_WORD_TYPE WT_INTEGER => u "целое"
  | P_WORD_TYPE WT_TEXT => u "текст"
  | P_WORD_TYPE WT_PREPOSITION => u "предл"
  end.

(** WORD_TYPE.records *)
Definition all_word_types : list word_type := [WT_NOUN; WT_ADJECTIVE; WT_PRONOUN; WT_VERB; WT_PARTICIPLE; WT_INTEGER; WT_TEXT; WT_PREPOSITION].

(** relation.records *)
Definition records (r : relation) : list prop :=
  match r with
  | R_CASE => [CASE_NOMINATIVE; CASE_GENITIVE; CASE_DATIVE; CASE_ACCUSATIVE; CASE_INSTRUMENTAL; CASE_PREPOSITIONAL]
  | R_ANIMALITY => [ANIMALITY_ANIMATE; ANIMALITY_INANIMATE]
  | R_NUMBER => [NUMBER_SINGULAR; NUMBER_PLURAL]
  | R_GENDER => [GENDER_MASCULINE; GENDER_NEUTER; GENDER_FEMININE]
  | R_VERB_FORM => [VERB_FORM_INFINITIVE; VERB_FORM_INDICATIVE; VERB_FORM_IMPERATIVE]
  | R_VOICE => [VOICE_DIRECT; VOICE_REVERSE]
  | R_TIME => [TIME_PAST; TIME_PRESENT; TIME_FUTURE]
  | R_PERSON => [PERSON_FIRST; PERSON_SECOND; PERSON_THIRD]
  | R_ASPECT => [ASPECT_IMPERFECTIVE; ASPECT_PERFECTIVE]
  | R_ADJECTIVE_CATEGORY => [ADJECTIVE_CATEGORY_QUALITY; ADJECTIVE_CATEGORY_RELATIVE; ADJECTIVE_CATEGORY_POSSESSIVE]
  | R_GRADE => [GRADE_POSITIVE; GRADE_COMPARATIVE; GRADE_SUPERLATIVE]
  | R_PRONOUN_CATEGORY => [PRONOUN_CATEGORY_PERSONAL; PRONOUN_CATEGORY_REFLEXIVE; PRONOUN_CATEGORY_POSSESSIVE; PRONOUN_CATEGORY_INTERROGATIVE; PRONOUN_CATEGORY_RELATIVE; PRONOUN_CATEGORY_DEMONSTRATIVE; PRONOUN_CATEGORY_ATTRIBUTIVE; PRONOUN_CATEGORY_NEGATIVE; PRONOUN_CATEGORY_VAGUE; PRONOUN_CATEGORY_MUTUAL]
  | R_INTEGER_FORM => [INTEGER_FORM_SINGULAR; INTEGER_FORM_DUAL; INTEGER_FORM_COMPOSITE_DUAL; INTEGER_FORM_PLURAL; INTEGER_FORM_MIL_BIL]
  | R_NOUN_FORM => [NOUN_FORM_NORMAL; NOUN_FORM_COUNTABLE]
  | R_ADJECTIVE_FORM => [ADJECTIVE_FORM_FULL; ADJECTIVE_FORM_SHORT]
  | R_PARTICIPLE_FORM => [PARTICIPLE_FORM_FULL; PARTICIPLE_FORM_SHORT]
  | R_WORD_CASE => [WORD_CASE_LOWER; WORD_CASE_UPPER]
  | R_DEPENDENCY_MODE => [DEPENDENCY_MODE_FULL; DEPENDENCY_MODE_SEMANTIC]
  | R_PREPOSITION_FORM => [PREPOSITION_FORM_NORMAL; PREPOSITION_FORM_ALTERNATIVE; PREPOSITION_FORM_SPECIAL]
  | R_WORD_TYPE => map P_WORD_TYPE all_word_types
  end.

(** The relation classes in order of definition in the module, i.e. in the order of r.__dict__;
    this is logic.get_property_relations(), utg/logic.py:6-9. *)
Definition all_relations : list relation :=
  [R_CASE; R_ANIMALITY; R_NUMBER; R_GENDER; R_VERB_FORM; R_VOICE; R_TIME; R_PERSON; R_ASPECT; R_ADJECTIVE_CATEGORY; R_GRADE; R_PRONOUN_CATEGORY; R_INTEGER_FORM; R_NOUN_FORM; R_ADJECTIVE_FORM; R_PARTICIPLE_FORM; R_WORD_CASE; R_DEPENDENCY_MODE; R_PREPOSITION_FORM; R_WORD_TYPE].

(** Position of a class in [all_relations]; used only for equality of classes (identity in Python). *)
Definition rel_idx (r : relation) : N :=
  match r with
  | R_CASE => 0
  | R_ANIMALITY => 1
  | R_NUMBER => 2
  | R_GENDER => 3
  | R_VERB_FORM => 4
  | R_VOICE => 5
  | R_TIME => 6
  | R_PERSON => 7
  | R_ASPECT => 8
  | R_ADJECTIVE_CATEGORY => 9
  | R_GRADE => 10
  | R_PRONOUN_CATEGORY => 11
  | R_INTEGER_FORM => 12
  | R_NOUN_FORM => 13
  | R_ADJECTIVE_FORM => 14
  | R_PARTICIPLE_FORM => 15
  | R_WORD_CASE => 16
  | R_DEPENDENCY_MODE => 17
  | R_PREPOSITION_FORM => 18
  | R_WORD_TYPE => 19
  end%N.

(** WORD_TYPE record.schema, utg/relations.py:119-126 *)
Definition schema (t : word_type) : list relation :=
  match t with
  | WT_NOUN => [R_NOUN_FORM; R_NUMBER; R_CASE]
  | WT_ADJECTIVE => [R_ADJECTIVE_FORM; R_GRADE; R_ANIMALITY; R_NUMBER; R_CASE; R_GENDER]
  | WT_PRONOUN => [R_ANIMALITY; R_NUMBER; R_CASE; R_GENDER]
  | WT_VERB => [R_VERB_FORM; R_TIME; R_NUMBER; R_PERSON; R_GENDER]
  | WT_PARTICIPLE => [R_PARTICIPLE_FORM; R_TIME; R_ANIMALITY; R_NUMBER; R_CASE; R_GENDER]
  | WT_INTEGER => []
  | WT_TEXT => []
  | WT_PREPOSITION => [R_PREPOSITION_FORM]
  end.

(** WORD_TYPE record.properties (a dict class -> required), utg/relations.py:119-126 *)
Definition type_properties (t : word_type) : list (relation * bool) :=
  match t with
  | WT_NOUN => [(R_ANIMALITY, true); (R_GENDER, true); (R_NUMBER, false)]
  | WT_ADJECTIVE => [(R_ADJECTIVE_CATEGORY, true)]
  | WT_PRONOUN => [(R_PRONOUN_CATEGORY, true); (R_PERSON, false)]
  | WT_VERB => [(R_ASPECT, true); (R_VOICE, true)]
  | WT_PARTICIPLE => [(R_ASPECT, true); (R_VOICE, true)]
  | WT_INTEGER => [(R_NUMBER, true); (R_INTEGER_FORM, true)]
  | WT_TEXT => []
  | WT_PREPOSITION => []
  end.

(** PROPERTY_TYPE.records as (value, relation), utg/relations.py:132-153 *)
Definition property_types : list (Z * relation) :=
  [(0, R_CASE);
   (1, R_ANIMALITY);
   (2, R_NUMBER);
   (3, R_GENDER);
   (4, R_VERB_FORM);
   (5, R_TIME);
   (6, R_PERSON);
   (7, R_ASPECT);
   (9, R_ADJECTIVE_CATEGORY);
   (10, R_GRADE);
   (11, R_PRONOUN_CATEGORY);
   (12, R_WORD_CASE);
   (13, R_WORD_TYPE);
   (14, R_INTEGER_FORM);
   (15, R_VOICE);
   (16, R_PREPOSITION_FORM);
   (17, R_ADJECTIVE_FORM);
   (18, R_PARTICIPLE_FORM);
   (19, R_NOUN_FORM);
   (20, R_DEPENDENCY_MODE)].

(** Equality of relation classes and of records (rels: same relation, same record; the value is a unique
    column). *)
Definition rel_eqb (a b : relation) : bool := N.eqb (rel_idx a) (rel_idx b).
Definition prop_eqb (p q : prop) : bool := rel_eqb (rel_of p) (rel_of q) && Z.eqb (value_of p) (value_of q).
Definition wt_eqb (a b : word_type) : bool := Z.eqb (wt_value a) (wt_value b).

(** Relation(value): rels lookup by primary column; None models NotExternalValueError. *)
Definition rel_call (r : relation) (v : Z) : option prop :=
  find (fun p => Z.eqb (value_of p) v) (records r).
(** WORD_TYPE(value) *)
Definition wt_call (v : Z) : option word_type := find (fun t => Z.eqb (wt_value t) v) all_word_types.
(** PROPERTY_TYPE(value).relation; None when value is not in PROPERTY_TYPE.index_value *)
Definition ptype_call (v : Z) : option relation :=
  match find (fun e => Z.eqb (fst e) v) property_types with Some e => Some (snd e) | None => None end.
(** PROPERTY_TYPE.index_relation[relation].value *)
Definition ptype_value (r : relation) : option Z :=
  match find (fun e => rel_eqb (snd e) r) property_types with Some e => Some (fst e) | None => None end.
