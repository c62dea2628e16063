(** * SpecPhrases: vocabulary for the statements about whole phrases, such as "[Npc] [подарил|npc] [hero|дт] [coins] [монета|coins|вн]." *)
From Verif Require Import PyBase Relations Restrictions Logic Data Words Transformators Constructors Dictionary Templates SpecProps SpecSlots SpecDictionary SpecAgreement
  SpecTemplates SpecSubstitution SpecReadme SpecPlaces.

(** the text is a template that is understood (with the names ext0 of externals) and prints x *)
Definition says (U : unicode) (ext0 ext : externals) (d : dictionary) (text x : str) : Prop :=
  exists t, parse_template U new_template text ext0 = (t, Ok tt) /\ substitute U t ext d = Ok x.

(** a name or a word as one writes it in a template, with a capital letter (then v is UPPER) or not; id: in lower case *)
Inductive spelled (U : unicode) : str -> str -> prop -> Prop :=
  | spelled_small id : small U id -> spelled U id id WORD_CASE_LOWER
  | spelled_capital c r id : plain U id -> trimmed U (c :: r) (c :: r) -> (forall x, In x (c :: r) -> ~ In x (u "|]%")) -> u_lower U (c :: r) = id -> u_isupper U c = true ->
      spelled U (c :: r) id WORD_CASE_UPPER.

(** the property set that a capital letter stands for *)
Definition capital_set (v : prop) : list props := match v with WORD_CASE_UPPER => [Properties [AProp WORD_CASE_UPPER]] | _ => [] end.
(** the text x, printed with a capital letter if v is UPPER *)
Inductive printed (U : unicode) : prop -> str -> str -> Prop :=
  | printed_small v x : v <> WORD_CASE_UPPER -> printed U v x x
  | printed_capital c r : printed U WORD_CASE_UPPER (c :: r) (u_upper U c ++ r).

(** the values of the groups that the word of f changes by: of the last of the sets that specifies one, else the default *)
Definition combined (f : wordform) (sets : list props) (c : list prop) : Prop :=
  Forall2 (fun g y => value_from sets g (Some y)) (schema (w_type (wf_word f))) c.

(** the form of w for a combination of values *)
Definition form_at (w : word) (c : list prop) (x : str) : Prop := exists i, place (w_type w) c i /\ nth_error (w_forms w) i = Some x.

(** an ordinary noun: animality a, gender g, number n (its own one, else singular) *)
Definition ordinary_noun (w : word) (a g n : prop) : Prop :=
  w_type w = WT_NOUN /\ holds (w_props w) R_ANIMALITY a /\ holds (w_props w) R_GENDER g /\ value (w_props w) R_NUMBER n /\
  silent (w_props w) [R_NOUN_FORM; R_CASE; R_WORD_CASE; R_VERB_FORM; R_TIME; R_DEPENDENCY_MODE; R_INTEGER_FORM].
(** what the dictionary recognises in the written form of a word that is to depend on other words: a singular form of the past tense of a verb, *)
Definition written_verb (f : wordform) : Prop :=
  w_type (wf_word f) = WT_VERB /\ silent (w_props (wf_word f)) (R_WORD_CASE :: R_DEPENDENCY_MODE :: R_INTEGER_FORM :: R_CASE :: schema WT_VERB) /\
  silent (wf_props f) [R_WORD_CASE; R_DEPENDENCY_MODE; R_CASE] /\
  value (wf_props f) R_VERB_FORM VERB_FORM_INDICATIVE /\ value (wf_props f) R_TIME TIME_PAST /\ value (wf_props f) R_NUMBER NUMBER_SINGULAR.
(** the normal form of a noun, *)
Definition written_noun (f : wordform) (a : prop) : Prop :=
  w_type (wf_word f) = WT_NOUN /\ holds (w_props (wf_word f)) R_ANIMALITY a /\ silent (w_props (wf_word f)) [R_CASE; R_WORD_CASE; R_DEPENDENCY_MODE; R_INTEGER_FORM] /\
  silent (wf_props f) [R_WORD_CASE; R_DEPENDENCY_MODE] /\ value (wf_props f) R_CASE CASE_NOMINATIVE.
(** a full form of an adjective, in the nominative *)
Definition written_adjective (f : wordform) (a g : prop) : Prop :=
  w_type (wf_word f) = WT_ADJECTIVE /\ silent (w_props (wf_word f)) (R_WORD_CASE :: R_DEPENDENCY_MODE :: R_INTEGER_FORM :: schema WT_ADJECTIVE) /\
  silent (wf_props f) [R_WORD_CASE; R_DEPENDENCY_MODE] /\
  value (wf_props f) R_ADJECTIVE_FORM ADJECTIVE_FORM_FULL /\ value (wf_props f) R_GRADE GRADE_POSITIVE /\ value (wf_props f) R_CASE CASE_NOMINATIVE /\
  value (wf_props f) R_ANIMALITY a /\ value (wf_props f) R_GENDER g.

(** the dependence mode of a phrase with numbers, and how it is written *)
Inductive written_mode : prop -> list prop -> Prop :=
  | mode_unwritten : written_mode DEPENDENCY_MODE_FULL []
  | mode_written mode : In mode (records R_DEPENDENCY_MODE) -> written_mode mode [mode].
