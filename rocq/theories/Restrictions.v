(** * Restrictions: utg/restrictions.py *)
From Verif Require Import PyBase Relations.

(** restriction table of one word type: a property -> the groups that are meaningless beside it *)
Definition restr_table := dict prop (list relation).

(** RESTRICTIONS, utg/restrictions.py:6-25 *)
Definition RESTRICTIONS (t : word_type) : restr_table :=
  match t with
  | WT_NOUN => [(NUMBER_PLURAL, [R_GENDER])]
  | WT_ADJECTIVE => [(NUMBER_PLURAL, [R_GENDER]);
                     (ADJECTIVE_CATEGORY_RELATIVE, [R_GRADE]);
                     (ADJECTIVE_CATEGORY_POSSESSIVE, [R_GRADE]);
                     (ADJECTIVE_FORM_SHORT, [R_CASE; R_ANIMALITY; R_GRADE]);
                     (GRADE_COMPARATIVE, [R_NUMBER; R_CASE; R_GENDER; R_ANIMALITY])]
  | WT_PRONOUN => [(NUMBER_PLURAL, [R_GENDER])]
  | WT_VERB => [(VERB_FORM_INFINITIVE, [R_TIME; R_PERSON; R_NUMBER; R_GENDER]);
                (VERB_FORM_IMPERATIVE, [R_TIME; R_GENDER]);
                (NUMBER_PLURAL, [R_GENDER]);
                (TIME_PAST, [R_PERSON]);
                (TIME_PRESENT, [R_GENDER]);
                (TIME_FUTURE, [R_GENDER])]
  | WT_PARTICIPLE => [(NUMBER_PLURAL, [R_GENDER]);
                      (PARTICIPLE_FORM_SHORT, [R_TIME; R_VOICE; R_CASE; R_ANIMALITY])]
  | WT_INTEGER => []
  | WT_TEXT => []
  | WT_PREPOSITION => []
  end.

(** RESTRICTED_KEY_PARTS, utg/restrictions.py:28-32; a frozenset is a list of its elements; a word type
    without entry gets () from [restricted_key_parts.get(word_type, ())], utg/logic.py:79 *)
Definition RESTRICTED_KEY_PARTS (t : word_type) : list (list prop) :=
  match t with
  | WT_NOUN => [[NOUN_FORM_COUNTABLE; NUMBER_SINGULAR]]
  | WT_VERB => [[VERB_FORM_IMPERATIVE; PERSON_THIRD];
                [VERB_FORM_IMPERATIVE; PERSON_FIRST; NUMBER_SINGULAR]]
  | _ => []
  end.

(** PRESETS, utg/restrictions.py:35 *)
Definition PRESETS : list (prop * prop) := [(NOUN_FORM_COUNTABLE, NUMBER_PLURAL)].
