(** * Transformators: utg/transformators.py *)
From Verif Require Import PyBase Relations Restrictions Logic Data Words.

(** [record.is_X] where [record] is a value returned by Properties.get; None has no such attribute. *)
Definition is_rec (o : option prop) (x : prop) : result bool :=
  match o with
  | None => Err AttributeError
  | Some p => Ok (prop_eqb p x)
  end.

Definition cloneP (p : props) (l : list prop) : props := clone p (map AProp l).

(** _noun_integer, utg/transformators.py:86-150 *)
Definition noun_integer (p : props) : result props :=
  integer_form <- pget p R_INTEGER_FORM ;;
  mode <- pget p R_DEPENDENCY_MODE ;;
  semantic <- is_rec mode DEPENDENCY_MODE_SEMANTIC ;;
  singular <- is_rec integer_form INTEGER_FORM_SINGULAR ;;
  if semantic : bool then
    if singular : bool then Ok (cloneP p [NOUN_FORM_NORMAL; NUMBER_SINGULAR])
    else Ok (cloneP p [NOUN_FORM_NORMAL; NUMBER_PLURAL])
  else
    case <- pget p R_CASE ;;
    animality <- pget p R_ANIMALITY ;;
    if singular : bool then Ok (cloneP p [NOUN_FORM_NORMAL; NUMBER_SINGULAR])
    else
    dual <- is_rec integer_form INTEGER_FORM_DUAL ;;
    nominative <- is_rec case CASE_NOMINATIVE ;;
    accusative <- is_rec case CASE_ACCUSATIVE ;;
    if dual : bool then
      if nominative : bool then Ok (cloneP p [NOUN_FORM_NORMAL; NUMBER_SINGULAR; CASE_GENITIVE])
      else
      inanimate <- is_rec animality ANIMALITY_INANIMATE ;;
      if accusative && inanimate then Ok (cloneP p [NOUN_FORM_NORMAL; NUMBER_SINGULAR; CASE_GENITIVE])
      else Ok (cloneP p [NOUN_FORM_COUNTABLE; NUMBER_PLURAL])
    else
    composite_dual <- is_rec integer_form INTEGER_FORM_COMPOSITE_DUAL ;;
    if composite_dual : bool then
      if nominative : bool then Ok (cloneP p [NOUN_FORM_NORMAL; NUMBER_SINGULAR; CASE_GENITIVE])
      else if accusative : bool then Ok (cloneP p [NOUN_FORM_NORMAL; NUMBER_SINGULAR; CASE_GENITIVE])
      else Ok (cloneP p [NOUN_FORM_COUNTABLE; NUMBER_PLURAL])
    else
    plural <- is_rec integer_form INTEGER_FORM_PLURAL ;;
    if plural : bool then
      if nominative : bool then Ok (cloneP p [NOUN_FORM_COUNTABLE; NUMBER_PLURAL; CASE_GENITIVE])
      else if accusative : bool then Ok (cloneP p [NOUN_FORM_COUNTABLE; NUMBER_PLURAL; CASE_GENITIVE])
      else Ok (cloneP p [NOUN_FORM_COUNTABLE; NUMBER_PLURAL])
    else
    mil_bil <- is_rec integer_form INTEGER_FORM_MIL_BIL ;;
    if mil_bil : bool then Ok (cloneP p [NOUN_FORM_COUNTABLE; NUMBER_PLURAL; CASE_GENITIVE])
    else Err UnknownIntegerFormError.

(** _adjective_integer, utg/transformators.py:153-223.  A dual numeral in nominative/accusative with a
    gender that is none of the three would fall through to the following tests. *)
Definition adjective_integer (p : props) : result props :=
  integer_form <- pget p R_INTEGER_FORM ;;
  mode <- pget p R_DEPENDENCY_MODE ;;
  semantic <- is_rec mode DEPENDENCY_MODE_SEMANTIC ;;
  singular <- is_rec integer_form INTEGER_FORM_SINGULAR ;;
  if semantic : bool then
    if singular : bool then Ok (cloneP p [NUMBER_SINGULAR])
    else Ok (cloneP p [NUMBER_PLURAL])
  else
    case <- pget p R_CASE ;;
    gender <- pget p R_GENDER ;;
    if singular : bool then Ok (cloneP p [NUMBER_SINGULAR])
    else
    dual <- is_rec integer_form INTEGER_FORM_DUAL ;;
    nominative <- is_rec case CASE_NOMINATIVE ;;
    accusative <- is_rec case CASE_ACCUSATIVE ;;
    masculine <- is_rec gender GENDER_MASCULINE ;;
    neuter <- is_rec gender GENDER_NEUTER ;;
    feminine <- is_rec gender GENDER_FEMININE ;;
    if dual && (nominative || accusative) && (masculine || neuter) then
      Ok (cloneP p [NUMBER_PLURAL; CASE_GENITIVE])
    else if dual && (nominative || accusative) && feminine then
      Ok (cloneP p [NUMBER_PLURAL; CASE_NOMINATIVE])
    else if dual && negb (nominative || accusative) then
      Ok (cloneP p [NUMBER_PLURAL])
    else
    composite_dual <- is_rec integer_form INTEGER_FORM_COMPOSITE_DUAL ;;
    if composite_dual : bool then
      if nominative : bool then Ok (cloneP p [NUMBER_SINGULAR; CASE_GENITIVE])
      else if accusative : bool then Ok (cloneP p [NUMBER_SINGULAR; CASE_GENITIVE])
      else Ok (cloneP p [NUMBER_PLURAL])
    else
    plural <- is_rec integer_form INTEGER_FORM_PLURAL ;;
    if plural : bool then
      if nominative : bool then Ok (cloneP p [NUMBER_PLURAL; CASE_GENITIVE])
      else if accusative : bool then Ok (cloneP p [NUMBER_PLURAL; CASE_GENITIVE])
      else Ok (cloneP p [NUMBER_PLURAL])
    else
    mil_bil <- is_rec integer_form INTEGER_FORM_MIL_BIL ;;
    if mil_bil : bool then Ok (cloneP p [NUMBER_PLURAL; CASE_GENITIVE])
    else Err UnknownIntegerFormError.

(** [s[-1]] and [s[0]] of a str *)
Definition py_last (s : str) : result char :=
  match rev s with c :: _ => Ok c | [] => Err IndexError end.
Definition py_first (s : str) : result char :=
  match s with c :: _ => Ok c | [] => Err IndexError end.

(** [a and b] where evaluating [b] may raise *)
Definition py_and (a : bool) (b : result bool) : result bool := if a then b else Ok false.

(** _consonant_preposition_any, utg/transformators.py:32-59.  number_of_syllables and has_fluent_vowel are
    read through their definition (see Lazy.v for the caching). *)
Definition consonant_preposition_any (U : unicode) (slave : str) (p : props) (master_form : wordform)
    : result props :=
  master <- wf_form U master_form ;;
  cluster <- starts_with_consonant_cluster U master_form ;;
  rule1 <- py_and cluster (n <- number_of_syllables (wf_word master_form) ;;
                           py_and (Nat.eqb n 1) (has_fluent_vowel (wf_word master_form))) ;;
  if rule1 : bool then Ok (cloneP p [PREPOSITION_FORM_ALTERNATIVE])
  else
    rule2 <- py_and (str_eqb slave (u "в") || str_eqb slave (u "с"))
                    (c <- py_first master ;; Ok (str_eqb slave [c] && cluster)) ;;
    if rule2 : bool then Ok (cloneP p [PREPOSITION_FORM_ALTERNATIVE])
    else Ok p.

(** _vowels_preposition_any, utg/transformators.py:62-83 *)
Definition special_masters : list str := [u "всех"; u "мне"; u "всём"; u "что"; u "всей"].
Definition vowels_preposition_any (U : unicode) (slave : str) (p : props) (master_form : wordform)
    : result props :=
  master <- wf_form U master_form ;;
  if str_eqb slave (u "о") && mem str_eqb master special_masters
  then Ok (cloneP p [PREPOSITION_FORM_SPECIAL])
  else
    c <- py_first master ;;
    if mem N.eqb c NOT_J_VOWELS then Ok (cloneP p [PREPOSITION_FORM_ALTERNATIVE])
    else Ok p.

(** _preposition_any, utg/transformators.py:18-29 *)
Definition preposition_any (U : unicode) (slave_word : word) (p : props) (master_form : wordform)
    : result props :=
  slave <- normal_form slave_word ;;
  c <- py_last slave ;;
  if mem N.eqb c CONSONANTS then consonant_preposition_any U slave p master_form
  else vowels_preposition_any U slave p master_form.

(** _TRANSFORMATORS, utg/transformators.py:226-233 *)
Inductive transformator := T_noun_integer | T_adjective_integer | T_preposition_any.
Definition wt_pair_eqb (a b : word_type * word_type) : bool :=
  wt_eqb (fst a) (fst b) && wt_eqb (snd a) (snd b).
Definition TRANSFORMATORS : dict (word_type * word_type) transformator :=
  fold_left (fun d t => dset wt_pair_eqb (WT_PREPOSITION, t) T_preposition_any d) all_word_types
    [((WT_NOUN, WT_INTEGER), T_noun_integer);
     ((WT_ADJECTIVE, WT_INTEGER), T_adjective_integer);
     ((WT_VERB, WT_INTEGER), T_adjective_integer);
     ((WT_PRONOUN, WT_INTEGER), T_noun_integer);
     ((WT_PARTICIPLE, WT_INTEGER), T_adjective_integer)].

(** transform, utg/transformators.py:8-15 *)
Definition transform (U : unicode) (slave_word : word) (slave_properties : props) (master_form : wordform)
    : result props :=
  match dget wt_pair_eqb (w_type slave_word, w_type (wf_word master_form)) TRANSFORMATORS with
  | Some T_noun_integer => noun_integer slave_properties
  | Some T_adjective_integer => adjective_integer slave_properties
  | Some T_preposition_any => preposition_any U slave_word slave_properties master_form
  | None => Ok slave_properties
  end.
