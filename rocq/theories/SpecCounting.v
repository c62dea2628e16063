(** * SpecCounting: phrases with numbers, as the README describes them: "5 красивых хомячков побежали в норку" *)
From Verif Require Import PyBase Relations Restrictions Logic Data Words Transformators Constructors Dictionary Templates SpecProps SpecSlots SpecDictionary SpecAgreement
  SpecTemplates SpecIntegers SpecSubstitution SpecReadme.

(** ** five kinds of numbers n >= 0 *)
(** 1, 21, 31, 101, but not 11 *)
Definition like_one (n : Z) : Prop := (n mod 10 = 1 /\ n mod 100 <> 11)%Z.
Definition two_to_four (n : Z) : Prop := (2 <= n <= 4)%Z.
(** 22, 34, 103, but not 12, 13, 14 *)
Definition ends_in_2_4 (n : Z) : Prop := (4 < n /\ 2 <= n mod 10 <= 4 /\ ~ (12 <= n mod 100 <= 14))%Z.
Definition round_million (n : Z) : Prop := (n = 1000000 \/ n = 1000000000)%Z.
(** 0, 5, 11, 20, 112 *)
Definition many (n : Z) : Prop := ((n mod 10 = 0 \/ 5 <= n mod 10 \/ 11 <= n mod 100 <= 14) /\ ~ round_million n)%Z.

(** ** which form of a noun is used beside the number n, if the phrase is in the case c; a: animality *)
(** full dependence: the number is a part of the phrase *)
Inductive counted_fully (n : Z) (a : prop) : prop -> key -> Prop :=
  | one_of_them c : like_one n -> counted_fully n a c [Some NOUN_FORM_NORMAL; Some NUMBER_SINGULAR; Some c]
  | few_nominative : two_to_four n -> counted_fully n a CASE_NOMINATIVE [Some NOUN_FORM_NORMAL; Some NUMBER_SINGULAR; Some CASE_GENITIVE]
  | few_things : two_to_four n -> a = ANIMALITY_INANIMATE -> counted_fully n a CASE_ACCUSATIVE [Some NOUN_FORM_NORMAL; Some NUMBER_SINGULAR; Some CASE_GENITIVE]
  | few_beings : two_to_four n -> a = ANIMALITY_ANIMATE -> counted_fully n a CASE_ACCUSATIVE [Some NOUN_FORM_COUNTABLE; Some NUMBER_PLURAL; Some CASE_ACCUSATIVE]
  | few_oblique c : two_to_four n -> ~ direct_case c -> counted_fully n a c [Some NOUN_FORM_COUNTABLE; Some NUMBER_PLURAL; Some c]
  | composite c : ends_in_2_4 n -> direct_case c -> counted_fully n a c [Some NOUN_FORM_NORMAL; Some NUMBER_SINGULAR; Some CASE_GENITIVE]
  | composite_oblique c : ends_in_2_4 n -> ~ direct_case c -> counted_fully n a c [Some NOUN_FORM_COUNTABLE; Some NUMBER_PLURAL; Some c]
  | many_direct c : many n -> direct_case c -> counted_fully n a c [Some NOUN_FORM_COUNTABLE; Some NUMBER_PLURAL; Some CASE_GENITIVE]
  | many_oblique c : many n -> ~ direct_case c -> counted_fully n a c [Some NOUN_FORM_COUNTABLE; Some NUMBER_PLURAL; Some c]
  | million_of c : round_million n -> counted_fully n a c [Some NOUN_FORM_COUNTABLE; Some NUMBER_PLURAL; Some CASE_GENITIVE].
(** semantic dependence: the number itself is not printed *)
Inductive counted_semantically (n : Z) (c : prop) : key -> Prop :=
  | the_one : like_one n -> counted_semantically n c [Some NOUN_FORM_NORMAL; Some NUMBER_SINGULAR; Some c]
  | several : ~ like_one n -> counted_semantically n c [Some NOUN_FORM_NORMAL; Some NUMBER_PLURAL; Some c].
Inductive counted_noun (n : Z) (a c : prop) : prop -> key -> Prop :=
  | noun_full k : counted_fully n a c k -> counted_noun n a c DEPENDENCY_MODE_FULL k
  | noun_semantic k : counted_semantically n c k -> counted_noun n a c DEPENDENCY_MODE_SEMANTIC k.

(** ** number and case of an adjective or participle; g: gender *)
Inductive described_fully (n : Z) (g : prop) : prop -> prop -> prop -> Prop :=
  | d_one c : like_one n -> described_fully n g c NUMBER_SINGULAR c
  | d_few c : two_to_four n -> direct_case c -> g <> GENDER_FEMININE -> described_fully n g c NUMBER_PLURAL CASE_GENITIVE
  | d_few_feminine c : two_to_four n -> direct_case c -> g = GENDER_FEMININE -> described_fully n g c NUMBER_PLURAL CASE_NOMINATIVE
  (* FINDING: "22 красивого хомячка" *)
  | d_composite c : ends_in_2_4 n -> direct_case c -> described_fully n g c NUMBER_SINGULAR CASE_GENITIVE
  | d_many c : many n -> direct_case c -> described_fully n g c NUMBER_PLURAL CASE_GENITIVE
  | d_million c : round_million n -> described_fully n g c NUMBER_PLURAL CASE_GENITIVE
  | d_oblique c : two_to_four n \/ ends_in_2_4 n \/ many n -> ~ direct_case c -> described_fully n g c NUMBER_PLURAL c.
Inductive described (n : Z) (g c : prop) : prop -> prop -> prop -> Prop :=
  | adj_full num c' : described_fully n g c num c' -> described n g c DEPENDENCY_MODE_FULL num c'
  | adj_semantic_one : like_one n -> described n g c DEPENDENCY_MODE_SEMANTIC NUMBER_SINGULAR c
  | adj_semantic_many : ~ like_one n -> described n g c DEPENDENCY_MODE_SEMANTIC NUMBER_PLURAL c.
(** the slot of an adjective or participle with this animality, number, case and gender: the first two properties are its form and its grade or time *)
Inductive attribute_start : word_type -> prop -> prop -> Prop :=
  | full_adjective grade : grade = GRADE_POSITIVE \/ grade = GRADE_SUPERLATIVE -> attribute_start WT_ADJECTIVE ADJECTIVE_FORM_FULL grade
  | full_participle time : time = TIME_PAST \/ time = TIME_PRESENT \/ time = TIME_FUTURE -> attribute_start WT_PARTICIPLE PARTICIPLE_FORM_FULL time.
Inductive attribute_key (p1 p2 a num c g : prop) : key -> Prop :=
  | attribute o : gender_entry num g o -> attribute_key p1 p2 a num c g [Some p1; Some p2; Some a; Some num; Some c; o].

(** the slot of a pronoun: it is governed as a noun but changes by animality and gender as an adjective does; it has no countable forms *)
Inductive pronoun_key (a g : prop) : key -> key -> Prop :=
  | pronoun nf num c o : gender_entry num g o -> pronoun_key a g [nf; Some num; Some c] [Some a; Some num; Some c; o].

(** ** number of a verb beside n (its case is, unless written, the nominative) *)
Inductive counted_number (n : Z) : prop -> prop -> Prop :=
  | v_one mode : like_one n -> counted_number n mode NUMBER_SINGULAR
  (* FINDING: "22 хомячка побежал" *)
  | v_composite : ends_in_2_4 n -> counted_number n DEPENDENCY_MODE_FULL NUMBER_SINGULAR
  | v_full : two_to_four n \/ many n \/ round_million n -> counted_number n DEPENDENCY_MODE_FULL NUMBER_PLURAL
  | v_semantic : ~ like_one n -> counted_number n DEPENDENCY_MODE_SEMANTIC NUMBER_PLURAL.
(** the slot of an indicative verb *)
Inductive verb_key (num person gender : prop) : prop -> key -> Prop :=
  | past_key o : gender_entry num gender o -> verb_key num person gender TIME_PAST [Some VERB_FORM_INDICATIVE; Some TIME_PAST; Some num; None; o]
  | other_key time : time = TIME_PRESENT \/ time = TIME_FUTURE -> verb_key num person gender time [Some VERB_FORM_INDICATIVE; Some time; Some num; Some person; None].

(** the integer form in the property sets ps is that of m, no other set has one *)
Definition only_integer (m : wordform) (f : wordform) (ps : list props) : Prop :=
  silent (w_props (wf_word f)) [R_INTEGER_FORM] /\ forall p, In p ps -> p = wf_props m \/ silent p [R_INTEGER_FORM].
(** a variable [id|..|..] that stands for the word form f and depends on exactly one integer, the number n; the property sets ps of its
    dependencies give it the dependence mode, the case c and the letter case v *)
Definition counted_variable (U : unicode) (ext0 ext : externals) (d : dictionary) (id : str) (bs : list str) (deps : list dependency) (f : wordform) (ps : list props)
  (ms : list wordform) (calls : list Z) (cache : integer_cache) (n : Z) (m : wordform) (mode c v : prop) : Prop :=
  unicode_ok U /\ small U id /\ Forall2 (written U ext0) bs deps /\ good_externals ext /\ is_dictionary U d /\ base_form ext d id f /\
  given ext deps ps ms /\ counted_by ms m /\ after_calls calls cache /\ snd (construct_integer cache n) = Ok m /\ only_integer m f ps /\
  value_from (layers f ps) R_DEPENDENCY_MODE (Some mode) /\ value_from (layers f ps) R_CASE (Some c) /\ value_from (layers f ps) R_WORD_CASE (Some v).
(** properties written after the number: a case, a dependence mode *)
Definition case_or_mode (p : prop) : Prop := rel_of p = R_CASE \/ rel_of p = R_DEPENDENCY_MODE.
(** ... as a text: nothing, or one list *)
Definition tail_text (vs : list prop) : list str := match vs with [] => [] | _ => [ids vs] end.
