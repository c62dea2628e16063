(** * Data: utg/data.py (module-level constants; dicts keyed by word type are functions of it) *)
From Verif Require Import PyBase Relations Restrictions Logic.

(** utg/data.py:6 *)
Definition VERBOSE_TO_PROPERTIES : dict str prop := get_verbose_to_relations.
(** utg/data.py:9 *)
Definition DEFAULT_PROPERTIES : dict relation (option prop) := get_default_properties.

(** utg/data.py:12-13 and get_caches, utg/logic.py:72-84 *)
Definition WORDS_CACHES (t : word_type) : dict key nat :=
  fst (get_cache (schema t) (RESTRICTIONS t) (RESTRICTED_KEY_PARTS t)).
Definition INVERTED_WORDS_CACHES (t : word_type) : list key :=
  snd (get_cache (schema t) (RESTRICTIONS t) (RESTRICTED_KEY_PARTS t)).

(** utg/data.py:15 and get_raw_caches, utg/logic.py:156-164.  A [result]: an exception there would make
    the import of the library fail.  One constant per word type, as in the dict that is built once at import (and so that
    Coq evaluates each table once). *)
Definition raw_cache_of (t : word_type) : result (dict key nat) :=
  get_raw_cache (INVERTED_WORDS_CACHES t) (schema t).
Definition RAW_NOUN := raw_cache_of WT_NOUN.
Definition RAW_ADJECTIVE := raw_cache_of WT_ADJECTIVE.
Definition RAW_PRONOUN := raw_cache_of WT_PRONOUN.
Definition RAW_VERB := raw_cache_of WT_VERB.
Definition RAW_PARTICIPLE := raw_cache_of WT_PARTICIPLE.
Definition RAW_INTEGER := raw_cache_of WT_INTEGER.
Definition RAW_TEXT := raw_cache_of WT_TEXT.
Definition RAW_PREPOSITION := raw_cache_of WT_PREPOSITION.
Definition RAW_WORDS_CACHES (t : word_type) : result (dict key nat) :=
  match t with
  | WT_NOUN => RAW_NOUN
  | WT_ADJECTIVE => RAW_ADJECTIVE
  | WT_PRONOUN => RAW_PRONOUN
  | WT_VERB => RAW_VERB
  | WT_PARTICIPLE => RAW_PARTICIPLE
  | WT_INTEGER => RAW_INTEGER
  | WT_TEXT => RAW_TEXT
  | WT_PREPOSITION => RAW_PREPOSITION
  end.

(** utg/data.py:18-21 (sets as lists without repetitions) *)
Definition CONSONANTS : list char := u "бвгджзйклмнпрстфхцчшщъьБВГДЖЗЙКЛМНПРСТФХЦЧШЩЪЬ".
Definition VOWELS : list char := u "аеёиоуыэюяАЕЁИОУЫЭЮЯ".
Definition J_VOWELS : list char := u "еёюяЕЁЮЯ".
Definition NOT_J_VOWELS : list char := filter (fun c => negb (mem N.eqb c J_VOWELS)) VOWELS.
