(** * Conformance: the expectations of the unit tests of the project (utg/tests), evaluated on the model.
    Generated by tools/gen_conformance.py; each Example cites the test.  Tests of the model, not properties. *)
From Verif Require Import PyBase Relations Restrictions Logic Data Words Transformators Constructors Dictionary Lexicon Templates.

Definition P (l : list prop) : props := Properties (map AProp l).
Definition res_props_eqb (a : result props) (b : props) : bool := match a with Ok p => props_eqb p b | Err _ => false end.
Definition U := ru_unicode.

(** utg/tests/test_transformators.py: test_noun_integer *)
Example test_noun_integer : forallb (fun t => res_props_eqb (noun_integer (P (fst t))) (P (snd t)))
  [([INTEGER_FORM_SINGULAR], [NOUN_FORM_NORMAL; INTEGER_FORM_SINGULAR; NUMBER_SINGULAR]);
   ([INTEGER_FORM_DUAL; CASE_NOMINATIVE], [NOUN_FORM_NORMAL; INTEGER_FORM_DUAL; NUMBER_SINGULAR; CASE_GENITIVE]);
   ([INTEGER_FORM_DUAL; CASE_DATIVE], [NOUN_FORM_COUNTABLE; INTEGER_FORM_DUAL; NUMBER_PLURAL; CASE_DATIVE]);
   ([INTEGER_FORM_DUAL; CASE_ACCUSATIVE; ANIMALITY_ANIMATE], [NOUN_FORM_COUNTABLE; INTEGER_FORM_DUAL; NUMBER_PLURAL; CASE_ACCUSATIVE; ANIMALITY_ANIMATE]);
   ([INTEGER_FORM_DUAL; CASE_ACCUSATIVE; ANIMALITY_INANIMATE], [NOUN_FORM_NORMAL; INTEGER_FORM_DUAL; NUMBER_SINGULAR; CASE_GENITIVE; ANIMALITY_INANIMATE]);
   ([INTEGER_FORM_COMPOSITE_DUAL; CASE_NOMINATIVE], [NOUN_FORM_NORMAL; INTEGER_FORM_COMPOSITE_DUAL; NUMBER_SINGULAR; CASE_GENITIVE]);
   ([INTEGER_FORM_COMPOSITE_DUAL; CASE_DATIVE], [NOUN_FORM_COUNTABLE; INTEGER_FORM_COMPOSITE_DUAL; NUMBER_PLURAL; CASE_DATIVE]);
   ([INTEGER_FORM_COMPOSITE_DUAL; CASE_ACCUSATIVE; ANIMALITY_ANIMATE], [NOUN_FORM_NORMAL; INTEGER_FORM_COMPOSITE_DUAL; NUMBER_SINGULAR; CASE_GENITIVE; ANIMALITY_ANIMATE]);
   ([INTEGER_FORM_COMPOSITE_DUAL; CASE_ACCUSATIVE; ANIMALITY_INANIMATE], [NOUN_FORM_NORMAL; INTEGER_FORM_COMPOSITE_DUAL; NUMBER_SINGULAR; CASE_GENITIVE; ANIMALITY_INANIMATE]);
   ([INTEGER_FORM_PLURAL; CASE_NOMINATIVE], [NOUN_FORM_COUNTABLE; INTEGER_FORM_PLURAL; NUMBER_PLURAL; CASE_GENITIVE]);
   ([INTEGER_FORM_PLURAL; CASE_DATIVE], [NOUN_FORM_COUNTABLE; INTEGER_FORM_PLURAL; NUMBER_PLURAL; CASE_DATIVE]);
   ([INTEGER_FORM_PLURAL; CASE_ACCUSATIVE; ANIMALITY_ANIMATE], [NOUN_FORM_COUNTABLE; INTEGER_FORM_PLURAL; NUMBER_PLURAL; CASE_GENITIVE; ANIMALITY_ANIMATE]);
   ([INTEGER_FORM_PLURAL; CASE_ACCUSATIVE; ANIMALITY_INANIMATE], [NOUN_FORM_COUNTABLE; INTEGER_FORM_PLURAL; NUMBER_PLURAL; CASE_GENITIVE; ANIMALITY_INANIMATE]);
   ([INTEGER_FORM_MIL_BIL; CASE_NOMINATIVE], [NOUN_FORM_COUNTABLE; INTEGER_FORM_MIL_BIL; NUMBER_PLURAL; CASE_GENITIVE]);
   ([INTEGER_FORM_MIL_BIL; CASE_DATIVE], [NOUN_FORM_COUNTABLE; INTEGER_FORM_MIL_BIL; NUMBER_PLURAL; CASE_GENITIVE]);
   ([INTEGER_FORM_MIL_BIL; CASE_ACCUSATIVE; ANIMALITY_ANIMATE], [NOUN_FORM_COUNTABLE; INTEGER_FORM_MIL_BIL; NUMBER_PLURAL; CASE_GENITIVE; ANIMALITY_ANIMATE]);
   ([INTEGER_FORM_MIL_BIL; CASE_ACCUSATIVE; ANIMALITY_INANIMATE], [NOUN_FORM_COUNTABLE; INTEGER_FORM_MIL_BIL; NUMBER_PLURAL; CASE_GENITIVE; ANIMALITY_INANIMATE])] = true.
Proof. vm_compute. reflexivity. Qed.

(** utg/tests/test_transformators.py: test_noun_integer__semantic_dependency *)
Example test_noun_integer__semantic_dependency : forallb (fun t => res_props_eqb (noun_integer (P (DEPENDENCY_MODE_SEMANTIC :: fst t))) (P (DEPENDENCY_MODE_SEMANTIC :: snd t)))
  [([INTEGER_FORM_SINGULAR], [NOUN_FORM_NORMAL; INTEGER_FORM_SINGULAR; NUMBER_SINGULAR]);
   ([INTEGER_FORM_DUAL; CASE_NOMINATIVE], [NOUN_FORM_NORMAL; INTEGER_FORM_DUAL; NUMBER_PLURAL; CASE_NOMINATIVE]);
   ([INTEGER_FORM_DUAL; CASE_DATIVE], [NOUN_FORM_NORMAL; INTEGER_FORM_DUAL; NUMBER_PLURAL; CASE_DATIVE]);
   ([INTEGER_FORM_DUAL; CASE_ACCUSATIVE; ANIMALITY_ANIMATE], [NOUN_FORM_NORMAL; INTEGER_FORM_DUAL; NUMBER_PLURAL; CASE_ACCUSATIVE; ANIMALITY_ANIMATE]);
   ([INTEGER_FORM_DUAL; CASE_ACCUSATIVE; ANIMALITY_INANIMATE], [NOUN_FORM_NORMAL; INTEGER_FORM_DUAL; NUMBER_PLURAL; CASE_ACCUSATIVE; ANIMALITY_INANIMATE]);
   ([INTEGER_FORM_COMPOSITE_DUAL; CASE_NOMINATIVE], [NOUN_FORM_NORMAL; INTEGER_FORM_COMPOSITE_DUAL; NUMBER_PLURAL; CASE_NOMINATIVE]);
   ([INTEGER_FORM_COMPOSITE_DUAL; CASE_DATIVE], [NOUN_FORM_NORMAL; INTEGER_FORM_COMPOSITE_DUAL; NUMBER_PLURAL; CASE_DATIVE]);
   ([INTEGER_FORM_COMPOSITE_DUAL; CASE_ACCUSATIVE; ANIMALITY_ANIMATE], [NOUN_FORM_NORMAL; INTEGER_FORM_COMPOSITE_DUAL; NUMBER_PLURAL; CASE_ACCUSATIVE; ANIMALITY_ANIMATE]);
   ([INTEGER_FORM_COMPOSITE_DUAL; CASE_ACCUSATIVE; ANIMALITY_INANIMATE], [NOUN_FORM_NORMAL; INTEGER_FORM_COMPOSITE_DUAL; NUMBER_PLURAL; CASE_ACCUSATIVE; ANIMALITY_INANIMATE]);
   ([INTEGER_FORM_PLURAL; CASE_NOMINATIVE], [NOUN_FORM_NORMAL; INTEGER_FORM_PLURAL; NUMBER_PLURAL; CASE_NOMINATIVE]);
   ([INTEGER_FORM_PLURAL; CASE_DATIVE], [NOUN_FORM_NORMAL; INTEGER_FORM_PLURAL; NUMBER_PLURAL; CASE_DATIVE]);
   ([INTEGER_FORM_PLURAL; CASE_ACCUSATIVE; ANIMALITY_ANIMATE], [NOUN_FORM_NORMAL; INTEGER_FORM_PLURAL; NUMBER_PLURAL; CASE_ACCUSATIVE; ANIMALITY_ANIMATE]);
   ([INTEGER_FORM_PLURAL; CASE_ACCUSATIVE; ANIMALITY_INANIMATE], [NOUN_FORM_NORMAL; INTEGER_FORM_PLURAL; NUMBER_PLURAL; CASE_ACCUSATIVE; ANIMALITY_INANIMATE]);
   ([INTEGER_FORM_MIL_BIL; CASE_NOMINATIVE], [NOUN_FORM_NORMAL; INTEGER_FORM_MIL_BIL; NUMBER_PLURAL; CASE_NOMINATIVE]);
   ([INTEGER_FORM_MIL_BIL; CASE_DATIVE], [NOUN_FORM_NORMAL; INTEGER_FORM_MIL_BIL; NUMBER_PLURAL; CASE_DATIVE]);
   ([INTEGER_FORM_MIL_BIL; CASE_ACCUSATIVE; ANIMALITY_ANIMATE], [NOUN_FORM_NORMAL; INTEGER_FORM_MIL_BIL; NUMBER_PLURAL; CASE_ACCUSATIVE; ANIMALITY_ANIMATE]);
   ([INTEGER_FORM_MIL_BIL; CASE_ACCUSATIVE; ANIMALITY_INANIMATE], [NOUN_FORM_NORMAL; INTEGER_FORM_MIL_BIL; NUMBER_PLURAL; CASE_ACCUSATIVE; ANIMALITY_INANIMATE])] = true.
Proof. vm_compute. reflexivity. Qed.

(** utg/tests/test_transformators.py: test_adjective_integer *)
Example test_adjective_integer : forallb (fun t => res_props_eqb (adjective_integer (P (fst t))) (P (snd t)))
  [([INTEGER_FORM_SINGULAR], [INTEGER_FORM_SINGULAR; NUMBER_SINGULAR]);
   ([INTEGER_FORM_DUAL; CASE_NOMINATIVE; GENDER_MASCULINE], [INTEGER_FORM_DUAL; NUMBER_PLURAL; CASE_GENITIVE; GENDER_MASCULINE]);
   ([INTEGER_FORM_DUAL; CASE_DATIVE; GENDER_MASCULINE], [INTEGER_FORM_DUAL; NUMBER_PLURAL; CASE_DATIVE; GENDER_MASCULINE]);
   ([INTEGER_FORM_DUAL; CASE_ACCUSATIVE; GENDER_MASCULINE], [INTEGER_FORM_DUAL; NUMBER_PLURAL; CASE_GENITIVE; GENDER_MASCULINE]);
   ([INTEGER_FORM_DUAL; CASE_NOMINATIVE; GENDER_NEUTER], [INTEGER_FORM_DUAL; NUMBER_PLURAL; CASE_GENITIVE; GENDER_NEUTER]);
   ([INTEGER_FORM_DUAL; CASE_DATIVE; GENDER_NEUTER], [INTEGER_FORM_DUAL; NUMBER_PLURAL; CASE_DATIVE; GENDER_NEUTER]);
   ([INTEGER_FORM_DUAL; CASE_ACCUSATIVE; GENDER_NEUTER], [INTEGER_FORM_DUAL; NUMBER_PLURAL; CASE_GENITIVE; GENDER_NEUTER]);
   ([INTEGER_FORM_DUAL; CASE_NOMINATIVE; GENDER_FEMININE], [INTEGER_FORM_DUAL; NUMBER_PLURAL; CASE_NOMINATIVE; GENDER_FEMININE]);
   ([INTEGER_FORM_DUAL; CASE_DATIVE; GENDER_FEMININE], [INTEGER_FORM_DUAL; NUMBER_PLURAL; CASE_DATIVE; GENDER_FEMININE]);
   ([INTEGER_FORM_DUAL; CASE_ACCUSATIVE; GENDER_FEMININE], [INTEGER_FORM_DUAL; NUMBER_PLURAL; CASE_NOMINATIVE; GENDER_FEMININE]);
   ([INTEGER_FORM_COMPOSITE_DUAL; CASE_NOMINATIVE], [INTEGER_FORM_COMPOSITE_DUAL; NUMBER_SINGULAR; CASE_GENITIVE]);
   ([INTEGER_FORM_COMPOSITE_DUAL; CASE_DATIVE], [INTEGER_FORM_COMPOSITE_DUAL; NUMBER_PLURAL; CASE_DATIVE]);
   ([INTEGER_FORM_COMPOSITE_DUAL; CASE_ACCUSATIVE; ANIMALITY_ANIMATE], [INTEGER_FORM_COMPOSITE_DUAL; NUMBER_SINGULAR; CASE_GENITIVE; ANIMALITY_ANIMATE]);
   ([INTEGER_FORM_COMPOSITE_DUAL; CASE_ACCUSATIVE; ANIMALITY_INANIMATE], [INTEGER_FORM_COMPOSITE_DUAL; NUMBER_SINGULAR; CASE_GENITIVE; ANIMALITY_INANIMATE]);
   ([INTEGER_FORM_PLURAL; CASE_NOMINATIVE], [INTEGER_FORM_PLURAL; NUMBER_PLURAL; CASE_GENITIVE]);
   ([INTEGER_FORM_PLURAL; CASE_DATIVE], [INTEGER_FORM_PLURAL; NUMBER_PLURAL; CASE_DATIVE]);
   ([INTEGER_FORM_PLURAL; CASE_ACCUSATIVE; ANIMALITY_ANIMATE], [INTEGER_FORM_PLURAL; NUMBER_PLURAL; CASE_GENITIVE; ANIMALITY_ANIMATE]);
   ([INTEGER_FORM_PLURAL; CASE_ACCUSATIVE; ANIMALITY_INANIMATE], [INTEGER_FORM_PLURAL; NUMBER_PLURAL; CASE_GENITIVE; ANIMALITY_INANIMATE]);
   ([INTEGER_FORM_MIL_BIL; CASE_NOMINATIVE], [INTEGER_FORM_MIL_BIL; NUMBER_PLURAL; CASE_GENITIVE]);
   ([INTEGER_FORM_MIL_BIL; CASE_DATIVE], [INTEGER_FORM_MIL_BIL; NUMBER_PLURAL; CASE_GENITIVE]);
   ([INTEGER_FORM_MIL_BIL; CASE_ACCUSATIVE; ANIMALITY_ANIMATE], [INTEGER_FORM_MIL_BIL; NUMBER_PLURAL; CASE_GENITIVE; ANIMALITY_ANIMATE]);
   ([INTEGER_FORM_MIL_BIL; CASE_ACCUSATIVE; ANIMALITY_INANIMATE], [INTEGER_FORM_MIL_BIL; NUMBER_PLURAL; CASE_GENITIVE; ANIMALITY_INANIMATE])] = true.
Proof. vm_compute. reflexivity. Qed.

(** utg/tests/test_transformators.py: test_adjective_integer__semantic_dependency *)
Example test_adjective_integer__semantic_dependency : forallb (fun t => res_props_eqb (adjective_integer (P (DEPENDENCY_MODE_SEMANTIC :: fst t))) (P (DEPENDENCY_MODE_SEMANTIC :: snd t)))
  [([INTEGER_FORM_SINGULAR], [INTEGER_FORM_SINGULAR; NUMBER_SINGULAR]);
   ([INTEGER_FORM_DUAL; CASE_NOMINATIVE; GENDER_MASCULINE], [INTEGER_FORM_DUAL; NUMBER_PLURAL; CASE_NOMINATIVE; GENDER_MASCULINE]);
   ([INTEGER_FORM_DUAL; CASE_DATIVE; GENDER_MASCULINE], [INTEGER_FORM_DUAL; NUMBER_PLURAL; CASE_DATIVE; GENDER_MASCULINE]);
   ([INTEGER_FORM_DUAL; CASE_ACCUSATIVE; GENDER_MASCULINE], [INTEGER_FORM_DUAL; NUMBER_PLURAL; CASE_ACCUSATIVE; GENDER_MASCULINE]);
   ([INTEGER_FORM_DUAL; CASE_NOMINATIVE; GENDER_NEUTER], [INTEGER_FORM_DUAL; NUMBER_PLURAL; CASE_NOMINATIVE; GENDER_NEUTER]);
   ([INTEGER_FORM_DUAL; CASE_DATIVE; GENDER_NEUTER], [INTEGER_FORM_DUAL; NUMBER_PLURAL; CASE_DATIVE; GENDER_NEUTER]);
   ([INTEGER_FORM_DUAL; CASE_ACCUSATIVE; GENDER_NEUTER], [INTEGER_FORM_DUAL; NUMBER_PLURAL; CASE_ACCUSATIVE; GENDER_NEUTER]);
   ([INTEGER_FORM_DUAL; CASE_NOMINATIVE; GENDER_FEMININE], [INTEGER_FORM_DUAL; NUMBER_PLURAL; CASE_NOMINATIVE; GENDER_FEMININE]);
   ([INTEGER_FORM_DUAL; CASE_DATIVE; GENDER_FEMININE], [INTEGER_FORM_DUAL; NUMBER_PLURAL; CASE_DATIVE; GENDER_FEMININE]);
   ([INTEGER_FORM_DUAL; CASE_ACCUSATIVE; GENDER_FEMININE], [INTEGER_FORM_DUAL; NUMBER_PLURAL; CASE_ACCUSATIVE; GENDER_FEMININE]);
   ([INTEGER_FORM_COMPOSITE_DUAL; CASE_NOMINATIVE], [INTEGER_FORM_COMPOSITE_DUAL; NUMBER_PLURAL; CASE_NOMINATIVE]);
   ([INTEGER_FORM_COMPOSITE_DUAL; CASE_DATIVE], [INTEGER_FORM_COMPOSITE_DUAL; NUMBER_PLURAL; CASE_DATIVE]);
   ([INTEGER_FORM_COMPOSITE_DUAL; CASE_ACCUSATIVE; ANIMALITY_ANIMATE], [INTEGER_FORM_COMPOSITE_DUAL; NUMBER_PLURAL; CASE_ACCUSATIVE; ANIMALITY_ANIMATE]);
   ([INTEGER_FORM_COMPOSITE_DUAL; CASE_ACCUSATIVE; ANIMALITY_INANIMATE], [INTEGER_FORM_COMPOSITE_DUAL; NUMBER_PLURAL; CASE_ACCUSATIVE; ANIMALITY_INANIMATE]);
   ([INTEGER_FORM_PLURAL; CASE_NOMINATIVE], [INTEGER_FORM_PLURAL; NUMBER_PLURAL; CASE_NOMINATIVE]);
   ([INTEGER_FORM_PLURAL; CASE_DATIVE], [INTEGER_FORM_PLURAL; NUMBER_PLURAL; CASE_DATIVE]);
   ([INTEGER_FORM_PLURAL; CASE_ACCUSATIVE; ANIMALITY_ANIMATE], [INTEGER_FORM_PLURAL; NUMBER_PLURAL; CASE_ACCUSATIVE; ANIMALITY_ANIMATE]);
   ([INTEGER_FORM_PLURAL; CASE_ACCUSATIVE; ANIMALITY_INANIMATE], [INTEGER_FORM_PLURAL; NUMBER_PLURAL; CASE_ACCUSATIVE; ANIMALITY_INANIMATE]);
   ([INTEGER_FORM_MIL_BIL; CASE_NOMINATIVE], [INTEGER_FORM_MIL_BIL; NUMBER_PLURAL; CASE_NOMINATIVE]);
   ([INTEGER_FORM_MIL_BIL; CASE_DATIVE], [INTEGER_FORM_MIL_BIL; NUMBER_PLURAL; CASE_DATIVE]);
   ([INTEGER_FORM_MIL_BIL; CASE_ACCUSATIVE; ANIMALITY_ANIMATE], [INTEGER_FORM_MIL_BIL; NUMBER_PLURAL; CASE_ACCUSATIVE; ANIMALITY_ANIMATE]);
   ([INTEGER_FORM_MIL_BIL; CASE_ACCUSATIVE; ANIMALITY_INANIMATE], [INTEGER_FORM_MIL_BIL; NUMBER_PLURAL; CASE_ACCUSATIVE; ANIMALITY_INANIMATE])] = true.
Proof. vm_compute. reflexivity. Qed.

(** utg/tests/test_constructors.py: test_construct_integer (through _construct_integer, and through the cache) *)
Definition integer_ok (z : Z) (p : list prop) (r : result wordform) : bool :=
  match r with
  | Ok f => word_eqb (wf_word f) {| w_type := WT_INTEGER; w_forms := [str_of_Z z]; w_props := P p |} && props_eqb (wf_props f) (P p)
  | Err _ => false
  end.
Definition integer_tests : list (Z * list prop) :=
  [(1%Z, [NUMBER_SINGULAR; INTEGER_FORM_SINGULAR]);
   (2%Z, [NUMBER_PLURAL; INTEGER_FORM_DUAL]);
   (3%Z, [NUMBER_PLURAL; INTEGER_FORM_DUAL]);
   (4%Z, [NUMBER_PLURAL; INTEGER_FORM_DUAL]);
   (5%Z, [NUMBER_PLURAL; INTEGER_FORM_PLURAL]);
   (10%Z, [NUMBER_PLURAL; INTEGER_FORM_PLURAL]);
   (11%Z, [NUMBER_PLURAL; INTEGER_FORM_PLURAL]);
   (12%Z, [NUMBER_PLURAL; INTEGER_FORM_PLURAL]);
   (13%Z, [NUMBER_PLURAL; INTEGER_FORM_PLURAL]);
   (14%Z, [NUMBER_PLURAL; INTEGER_FORM_PLURAL]);
   (15%Z, [NUMBER_PLURAL; INTEGER_FORM_PLURAL]);
   (24%Z, [NUMBER_PLURAL; INTEGER_FORM_COMPOSITE_DUAL]);
   (25%Z, [NUMBER_PLURAL; INTEGER_FORM_PLURAL]);
   (1001%Z, [NUMBER_PLURAL; INTEGER_FORM_SINGULAR]);
   (1002%Z, [NUMBER_PLURAL; INTEGER_FORM_COMPOSITE_DUAL]);
   (1003%Z, [NUMBER_PLURAL; INTEGER_FORM_COMPOSITE_DUAL]);
   (1004%Z, [NUMBER_PLURAL; INTEGER_FORM_COMPOSITE_DUAL]);
   (1005%Z, [NUMBER_PLURAL; INTEGER_FORM_PLURAL]);
   (1010%Z, [NUMBER_PLURAL; INTEGER_FORM_PLURAL]);
   (1011%Z, [NUMBER_PLURAL; INTEGER_FORM_PLURAL]);
   (1012%Z, [NUMBER_PLURAL; INTEGER_FORM_PLURAL]);
   (1013%Z, [NUMBER_PLURAL; INTEGER_FORM_PLURAL]);
   (1014%Z, [NUMBER_PLURAL; INTEGER_FORM_PLURAL]);
   (1015%Z, [NUMBER_PLURAL; INTEGER_FORM_PLURAL]);
   (1024%Z, [NUMBER_PLURAL; INTEGER_FORM_COMPOSITE_DUAL]);
   (1025%Z, [NUMBER_PLURAL; INTEGER_FORM_PLURAL]);
   (1000000%Z, [NUMBER_PLURAL; INTEGER_FORM_MIL_BIL]);
   (1000000000%Z, [NUMBER_PLURAL; INTEGER_FORM_MIL_BIL])].
Example test_construct_integer : forallb (fun t => integer_ok (fst t) (snd t) (construct_integer_raw (fst t))) integer_tests = true.
Proof. vm_compute. reflexivity. Qed.
Example test_construct_integer__cached :
  let c := fst (construct_integer None 0) in forallb (fun t => integer_ok (fst t) (snd t) (snd (construct_integer c (fst t)))) integer_tests = true.
Proof. vm_compute. reflexivity. Qed.
(** the forms are the decimal texts *)
Example test_construct_integer__texts : map (fun t => str_of_Z (fst t)) integer_tests = [u "1"; u "2"; u "3"; u "4"; u "5"; u "10"; u "11"; u "12"; u "13"; u "14"; u "15"; u "24"; u "25"; u "1001"; u "1002"; u "1003"; u "1004"; u "1005"; u "1010"; u "1011"; u "1012"; u "1013"; u "1014"; u "1015"; u "1024"; u "1025"; u "1000000"; u "1000000000"].
Proof. vm_compute. reflexivity. Qed.

(** utg/tests/test_logic.py: test_keys_generation__with_restrictions *)
Example test_keys_generation__with_restrictions : keys_generator [] [R_GENDER; R_VERB_FORM; R_CASE] [(GENDER_MASCULINE, [R_VERB_FORM; R_CASE]); (GENDER_FEMININE, [R_VERB_FORM]); (VERB_FORM_INFINITIVE, [R_CASE])] =
  [[Some GENDER_MASCULINE; None; None];
   [Some GENDER_NEUTER; Some VERB_FORM_INFINITIVE; None];
   [Some GENDER_NEUTER; Some VERB_FORM_INDICATIVE; Some CASE_NOMINATIVE];
   [Some GENDER_NEUTER; Some VERB_FORM_INDICATIVE; Some CASE_GENITIVE];
   [Some GENDER_NEUTER; Some VERB_FORM_INDICATIVE; Some CASE_DATIVE];
   [Some GENDER_NEUTER; Some VERB_FORM_INDICATIVE; Some CASE_ACCUSATIVE];
   [Some GENDER_NEUTER; Some VERB_FORM_INDICATIVE; Some CASE_INSTRUMENTAL];
   [Some GENDER_NEUTER; Some VERB_FORM_INDICATIVE; Some CASE_PREPOSITIONAL];
   [Some GENDER_NEUTER; Some VERB_FORM_IMPERATIVE; Some CASE_NOMINATIVE];
   [Some GENDER_NEUTER; Some VERB_FORM_IMPERATIVE; Some CASE_GENITIVE];
   [Some GENDER_NEUTER; Some VERB_FORM_IMPERATIVE; Some CASE_DATIVE];
   [Some GENDER_NEUTER; Some VERB_FORM_IMPERATIVE; Some CASE_ACCUSATIVE];
   [Some GENDER_NEUTER; Some VERB_FORM_IMPERATIVE; Some CASE_INSTRUMENTAL];
   [Some GENDER_NEUTER; Some VERB_FORM_IMPERATIVE; Some CASE_PREPOSITIONAL];
   [Some GENDER_FEMININE; None; Some CASE_NOMINATIVE];
   [Some GENDER_FEMININE; None; Some CASE_GENITIVE];
   [Some GENDER_FEMININE; None; Some CASE_DATIVE];
   [Some GENDER_FEMININE; None; Some CASE_ACCUSATIVE];
   [Some GENDER_FEMININE; None; Some CASE_INSTRUMENTAL];
   [Some GENDER_FEMININE; None; Some CASE_PREPOSITIONAL]].
Proof. vm_compute. reflexivity. Qed.

(** utg/tests/test_logic.py: test_get_caches *)
Example test_get_caches :
  get_cache [R_NUMBER; R_CASE] [] [] =
  ([([Some NUMBER_SINGULAR; Some CASE_NOMINATIVE], 0);
    ([Some NUMBER_SINGULAR; Some CASE_GENITIVE], 1);
    ([Some NUMBER_SINGULAR; Some CASE_DATIVE], 2);
    ([Some NUMBER_SINGULAR; Some CASE_ACCUSATIVE], 3);
    ([Some NUMBER_SINGULAR; Some CASE_INSTRUMENTAL], 4);
    ([Some NUMBER_SINGULAR; Some CASE_PREPOSITIONAL], 5);
    ([Some NUMBER_PLURAL; Some CASE_NOMINATIVE], 6);
    ([Some NUMBER_PLURAL; Some CASE_GENITIVE], 7);
    ([Some NUMBER_PLURAL; Some CASE_DATIVE], 8);
    ([Some NUMBER_PLURAL; Some CASE_ACCUSATIVE], 9);
    ([Some NUMBER_PLURAL; Some CASE_INSTRUMENTAL], 10);
    ([Some NUMBER_PLURAL; Some CASE_PREPOSITIONAL], 11)],
   [[Some NUMBER_SINGULAR; Some CASE_NOMINATIVE];
    [Some NUMBER_SINGULAR; Some CASE_GENITIVE];
    [Some NUMBER_SINGULAR; Some CASE_DATIVE];
    [Some NUMBER_SINGULAR; Some CASE_ACCUSATIVE];
    [Some NUMBER_SINGULAR; Some CASE_INSTRUMENTAL];
    [Some NUMBER_SINGULAR; Some CASE_PREPOSITIONAL];
    [Some NUMBER_PLURAL; Some CASE_NOMINATIVE];
    [Some NUMBER_PLURAL; Some CASE_GENITIVE];
    [Some NUMBER_PLURAL; Some CASE_DATIVE];
    [Some NUMBER_PLURAL; Some CASE_ACCUSATIVE];
    [Some NUMBER_PLURAL; Some CASE_INSTRUMENTAL];
    [Some NUMBER_PLURAL; Some CASE_PREPOSITIONAL]]).
Proof. vm_compute. reflexivity. Qed.

(** utg/tests/test_logic.py: test_get_caches__restricted_parts *)
Example test_get_caches__restricted_parts :
  get_cache [R_NUMBER; R_CASE] [] [[NUMBER_SINGULAR; CASE_DATIVE]; [NUMBER_PLURAL; CASE_ACCUSATIVE]] =
  ([([Some NUMBER_SINGULAR; Some CASE_NOMINATIVE], 0);
    ([Some NUMBER_SINGULAR; Some CASE_GENITIVE], 1);
    ([Some NUMBER_SINGULAR; Some CASE_ACCUSATIVE], 2);
    ([Some NUMBER_SINGULAR; Some CASE_INSTRUMENTAL], 3);
    ([Some NUMBER_SINGULAR; Some CASE_PREPOSITIONAL], 4);
    ([Some NUMBER_PLURAL; Some CASE_NOMINATIVE], 5);
    ([Some NUMBER_PLURAL; Some CASE_GENITIVE], 6);
    ([Some NUMBER_PLURAL; Some CASE_DATIVE], 7);
    ([Some NUMBER_PLURAL; Some CASE_INSTRUMENTAL], 8);
    ([Some NUMBER_PLURAL; Some CASE_PREPOSITIONAL], 9)],
   [[Some NUMBER_SINGULAR; Some CASE_NOMINATIVE];
    [Some NUMBER_SINGULAR; Some CASE_GENITIVE];
    [Some NUMBER_SINGULAR; Some CASE_ACCUSATIVE];
    [Some NUMBER_SINGULAR; Some CASE_INSTRUMENTAL];
    [Some NUMBER_SINGULAR; Some CASE_PREPOSITIONAL];
    [Some NUMBER_PLURAL; Some CASE_NOMINATIVE];
    [Some NUMBER_PLURAL; Some CASE_GENITIVE];
    [Some NUMBER_PLURAL; Some CASE_DATIVE];
    [Some NUMBER_PLURAL; Some CASE_INSTRUMENTAL];
    [Some NUMBER_PLURAL; Some CASE_PREPOSITIONAL]]).
Proof. vm_compute. reflexivity. Qed.

(** utg/tests/test_logic.py: test_get_caches__with_restrictions *)
Example test_get_caches__with_restrictions :
  get_cache [R_NUMBER; R_CASE] [(NUMBER_PLURAL, [R_CASE])] [] =
  ([([Some NUMBER_SINGULAR; Some CASE_NOMINATIVE], 0);
    ([Some NUMBER_SINGULAR; Some CASE_GENITIVE], 1);
    ([Some NUMBER_SINGULAR; Some CASE_DATIVE], 2);
    ([Some NUMBER_SINGULAR; Some CASE_ACCUSATIVE], 3);
    ([Some NUMBER_SINGULAR; Some CASE_INSTRUMENTAL], 4);
    ([Some NUMBER_SINGULAR; Some CASE_PREPOSITIONAL], 5);
    ([Some NUMBER_PLURAL; None], 6)],
   [[Some NUMBER_SINGULAR; Some CASE_NOMINATIVE];
    [Some NUMBER_SINGULAR; Some CASE_GENITIVE];
    [Some NUMBER_SINGULAR; Some CASE_DATIVE];
    [Some NUMBER_SINGULAR; Some CASE_ACCUSATIVE];
    [Some NUMBER_SINGULAR; Some CASE_INSTRUMENTAL];
    [Some NUMBER_SINGULAR; Some CASE_PREPOSITIONAL];
    [Some NUMBER_PLURAL; None]]).
Proof. vm_compute. reflexivity. Qed.

(** utg/tests/test_logic.py: test_get_nearest_key *)
Example test_get_nearest_key : map (fun k => get_nearest_key k [[None; None; None]; [Some CASE_DATIVE; Some GENDER_MASCULINE; Some NUMBER_SINGULAR]; [Some CASE_DATIVE; None; Some NUMBER_PLURAL]; [None; Some GENDER_MASCULINE; None]])
  [[None; Some GENDER_FEMININE; None]; [None; Some GENDER_MASCULINE; Some NUMBER_PLURAL]; [Some CASE_DATIVE; Some GENDER_FEMININE; Some NUMBER_SINGULAR]] =
  [Some [None; None; None]; Some [None; Some GENDER_MASCULINE; None]; Some [Some CASE_DATIVE; Some GENDER_MASCULINE; Some NUMBER_SINGULAR]].
Proof. vm_compute. reflexivity. Qed.

(** utg/tests/test_logic.py: test_get_default_properties *)
Example test_get_default_properties :
  let expected := [Some CASE_NOMINATIVE; Some GENDER_MASCULINE; Some VERB_FORM_INFINITIVE; Some ADJECTIVE_FORM_FULL; Some PARTICIPLE_FORM_FULL; Some TIME_PAST; Some VOICE_DIRECT; Some PRONOUN_CATEGORY_PERSONAL; Some WORD_CASE_LOWER; Some DEPENDENCY_MODE_FULL; Some ANIMALITY_ANIMATE; Some PERSON_FIRST; Some GRADE_POSITIVE; Some ADJECTIVE_CATEGORY_QUALITY; Some NUMBER_SINGULAR; Some ASPECT_IMPERFECTIVE; Some INTEGER_FORM_SINGULAR; Some PREPOSITION_FORM_NORMAL; Some NOUN_FORM_NORMAL; None] in
  forallb (fun kv => mem (opt_eqb prop_eqb) (snd kv) expected) get_default_properties
  && forallb (fun o => mem (opt_eqb prop_eqb) o (map snd get_default_properties)) expected = true.
Proof. vm_compute. reflexivity. Qed.

(** ** Hand-transcribed tests *)
Definition W (t : word_type) (forms : list str) (p : list prop) : word := {| w_type := t; w_forms := forms; w_props := P p |}.
Definition wf (w : word) (p : list prop) : wordform := WordForm w (Some (P p)) None.
Definition wf0 (w : word) : wordform := WordForm w None None.
Definition text_is (r : result str) (s : str) : bool := match r with Ok x => str_eqb x s | Err _ => false end.
(** create_test_word with the random generator answering "skip" (the outcome is ignored: C54) *)
Definition test_word (t : word_type) (prefix : str) (p : list prop) : word :=
  match create_test_word (fun _ => true) t prefix [] false (Some (P p)) with Ok w => w | Err _ => W t [] [] end.
(** [word.forms[:n] = l] *)
Definition patch (w : word) (l : list str) : word :=
  {| w_type := w_type w; w_forms := l ++ skipn (length l) (w_forms w); w_props := w_props w |}.

Definition dream := W WT_NOUN
  [u "сон"; u "сна"; u "сну"; u "сон"; u "сном"; u "сне"; u "сны"; u "снов"; u "снам"; u "сны"; u "снами"; u "снах";
   u "сны"; u "снов"; u "снам"; u "сны"; u "снами"; u "снах"] [GENDER_MASCULINE; ANIMALITY_INANIMATE].
Definition vision := W WT_NOUN
  [u "сновидение"; u "сновидения"; u "сновидению"; u "сновидение"; u "сновидением"; u "сновидении";
   u "сновидения"; u "сновидений"; u "сновидениям"; u "сновидения"; u "сновидениями"; u "сновидениях";
   u "сновидения"; u "сновидений"; u "сновидениям"; u "сновидения"; u "сновидениями"; u "сновидениях"] [GENDER_NEUTER; ANIMALITY_INANIMATE].
Definition power := W WT_NOUN
  ([u "власть"; u "власти"; u "власти"; u "власть"; u "властью"; u "власти"] ++ repeat [] 12) [GENDER_MASCULINE; ANIMALITY_INANIMATE; NUMBER_SINGULAR].
Definition preposition (a b c : str) : word := W WT_PREPOSITION [a; b; c] [].

(** expected: Some = the given form, None = the properties unchanged; for every initial preposition form *)
Definition prep_ok (t : word * wordform * option prop) : bool :=
  let '(pre, master, expected) := t in
  forallb (fun initial => res_props_eqb (preposition_any U pre (P [initial]) master)
                            (P [match expected with Some e => e | None => initial end]))
          (records R_PREPOSITION_FORM).
(** utg/tests/test_transformators.py: test_preposition_consonants *)
Example test_preposition_consonants :
  let (pre1, pre2) := (preposition (u "под") (u "подо") (u "подо"), preposition (u "за") (u "за") (u "за")) in
  let (pre3, pre4) := (preposition (u "в") (u "во") (u "во"), preposition (u "с") (u "со") (u "со")) in
  let (m1, m2) := (wf dream [CASE_NOMINATIVE], wf dream [CASE_DATIVE]) in
  let (m3, m4) := (wf0 vision, wf0 power) in
  let ALT := Some PREPOSITION_FORM_ALTERNATIVE in
  forallb prep_ok
    [(pre1, m1, None); (pre1, m2, ALT); (pre1, m3, None); (pre1, m4, None);
     (pre2, m1, None); (pre2, m2, None); (pre2, m3, None); (pre2, m4, None);
     (pre3, m1, None); (pre3, m2, ALT); (pre3, m3, None); (pre3, m4, ALT);
     (pre4, m1, None); (pre4, m2, ALT); (pre4, m3, ALT); (pre4, m4, None)] = true.
Proof. vm_compute. reflexivity. Qed.

Definition dinner := W WT_NOUN
  [u "ужин"; u "ужина"; u "ужину"; u "ужин"; u "ужином"; u "ужине"; u "ужины"; u "ужинов"; u "ужинам"; u "ужины"; u "ужинами"; u "ужинах";
   u "ужины"; u "ужинов"; u "ужинам"; u "ужины"; u "ужинами"; u "ужинах"] [GENDER_MASCULINE; ANIMALITY_INANIMATE].
Definition lawyer := W WT_NOUN
  [u "юрист"; u "юриста"; u "юристу"; u "юриста"; u "юристом"; u "юристе"; u "юристы"; u "юристов"; u "юристам"; u "юристов"; u "юристами"; u "юристах";
   u "юристы"; u "юристов"; u "юристам"; u "юристов"; u "юристами"; u "юристах"] [GENDER_NEUTER; ANIMALITY_INANIMATE].
Definition me_half : list str :=
  [u "я"; u "я"; u "я"; u "меня"; u "меня"; u "меня"; u "мне"; u "мне"; u "мне"; u "меня"; u "меня"; u "меня"; u "мной"; u "мной"; u "мной";
   u "мне"; u "мне"; u "мне"; u "мы"; u "нас"; u "нам"; u "нас"; u "нами"; u "нас"].
Definition me := W WT_PRONOUN (me_half ++ me_half) [PRONOUN_CATEGORY_PERSONAL].
(** utg/tests/test_transformators.py: test_preposition_vovels *)
Example test_preposition_vovels :
  let (pre1, pre2) := (preposition (u "о") (u "об") (u "обо"), preposition (u "у") (u "у") (u "у")) in
  let (m1, m2) := (wf dinner [CASE_NOMINATIVE], wf dinner [CASE_DATIVE]) in
  let '(m3, m4, m5) := (wf0 lawyer, wf0 me, wf me [CASE_DATIVE]) in
  let (ALT, SPC) := (Some PREPOSITION_FORM_ALTERNATIVE, Some PREPOSITION_FORM_SPECIAL) in
  text_is (wf_form U m5) (u "мне") &&
  forallb prep_ok
    [(pre1, m1, ALT); (pre1, m2, ALT); (pre1, m3, None); (pre1, m4, None); (pre1, m5, SPC);
     (pre2, m1, ALT); (pre2, m2, ALT); (pre2, m3, None); (pre2, m4, None); (pre2, m5, None)] = true.
Proof. vm_compute. reflexivity. Qed.

(** ** utg/tests/test_words.py *)
(** test_update, test_get_key, test_eq *)
Example test_properties :
  let p := P [CASE_DATIVE; NUMBER_PLURAL; PERSON_SECOND] in
  props_eqb (update p [AProp NUMBER_SINGULAR; AProp TIME_FUTURE]) (P [CASE_DATIVE; NUMBER_SINGULAR; PERSON_SECOND; TIME_FUTURE]) = true /\
  get_raw_key (P [CASE_DATIVE; NUMBER_PLURAL; GENDER_FEMININE]) [] = Ok [] /\
  get_raw_key (P [CASE_DATIVE; NUMBER_PLURAL; GENDER_FEMININE]) [R_TIME; R_CASE; R_GENDER] = Ok [Some TIME_PAST; Some CASE_DATIVE; Some GENDER_FEMININE] /\
  props_eqb p (P [CASE_DATIVE; NUMBER_PLURAL; PERSON_SECOND]) = true /\
  props_eqb p (Properties [AProps p; AProp NUMBER_SINGULAR]) = false.
Proof. vm_compute. repeat split. Qed.
(** test_form, test_form__optional_property, test_normal_form, test_normal_form__fixed_properties, test_get_forms_number__integer *)
Example test_word_form :
  let w0 := test_word WT_NOUN (u "w-") [GENDER_FEMININE; ANIMALITY_INANIMATE] in
  let w1 := test_word WT_NOUN (u "w-") [GENDER_FEMININE; ANIMALITY_INANIMATE; NUMBER_PLURAL] in
  let w2 := test_word WT_NOUN (u "w-") [GENDER_FEMININE; ANIMALITY_INANIMATE; NUMBER_SINGULAR] in
  let ps := [P [CASE_DATIVE]; P [CASE_DATIVE; NUMBER_PLURAL]; P [CASE_DATIVE; TIME_FUTURE]] in
  map (word_form w0) ps = [Ok (u "w-нс,ед,дт"); Ok (u "w-нс,мн,дт"); Ok (u "w-нс,ед,дт")] /\
  map (word_form w1) ps = [Ok (u "w-нс,мн,дт"); Ok (u "w-нс,мн,дт"); Ok (u "w-нс,мн,дт")] /\
  map (word_form w2) ps = [Ok (u "w-нс,ед,дт"); Ok (u "w-нс,ед,дт"); Ok (u "w-нс,ед,дт")] /\
  normal_form (test_word WT_NOUN (u "w-") []) = Ok (nth 0 (w_forms (test_word WT_NOUN (u "w-") [])) []) /\
  normal_form (test_word WT_NOUN (u "w-") [NUMBER_PLURAL]) = Ok (u "w-нс,мн,им") /\
  get_forms_number WT_INTEGER = 1.
Proof. vm_compute. repeat split. Qed.
(** test_number_of_syllables, test_has_fluent_vowel *)
Example test_syllables :
  let w s := patch (test_word WT_NOUN (u "w-") []) [s] in
  map (fun s => number_of_syllables (w s)) [u "б"; u "а"; u "абвг"; u "абракадабра"] = [Ok 1; Ok 1; Ok 1; Ok 5] /\
  has_fluent_vowel (W WT_NOUN (repeat (u "абракадубр") 18) []) = Ok false /\
  forallb (fun v => match has_fluent_vowel (W WT_NOUN (u "абракадубр" :: repeat (u "абракадубр" ++ [v]) 17) []) with Ok b => negb b | Err _ => false end) VOWELS = true /\
  has_fluent_vowel dream = Ok true.
Proof. vm_compute. repeat split. Qed.
(** test_all_forms *)
Example test_all_forms : let w := test_word WT_NOUN (u "w-") [] in
  match all_forms w with Ok l => mapM (wf_form U) l = Ok (w_forms w) /\ length l = 18 | Err _ => False end.
Proof. vm_compute. repeat split. Qed.
(** test_autofill_missed_forms *)
Example test_autofill_missed_forms :
  autofill_missed_forms (W WT_NOUN
    [u "сон"; u "сна"; []; u "сон"; u "сном"; u "сне"; u "сны"; u "снов"; u "снам"; []; u "снами"; u "снах"; u "сны"; []; []; []; u "снами"; []] [GENDER_MASCULINE; ANIMALITY_INANIMATE])
  = Ok (W WT_NOUN
    [u "сон"; u "сна"; u "снам"; u "сон"; u "сном"; u "сне"; u "сны"; u "снов"; u "снам"; u "сон"; u "снами"; u "снах";
     u "сны"; u "снов"; u "снам"; u "сны"; u "снами"; u "снах"] [GENDER_MASCULINE; ANIMALITY_INANIMATE]).
Proof. vm_compute. reflexivity. Qed.
(** WordFormTests: test_init__simple, test_form, test_starts_with_consonant_cluster *)
Example test_word_forms :
  let w := test_word WT_NOUN (u "w-") [] in
  wf_props (wf w [NUMBER_PLURAL]) = P [NUMBER_PLURAL] /\ wf_form_props (wf w [NUMBER_PLURAL]) = P [NUMBER_PLURAL] /\
  wf_form U (WordForm w (Some (P [NUMBER_PLURAL])) (Some (P [NUMBER_PLURAL; CASE_DATIVE]))) = Ok (u "w-нс,мн,дт") /\
  starts_with_consonant_cluster U (wf dream [CASE_NOMINATIVE]) = Ok false /\
  starts_with_consonant_cluster U (wf dream [CASE_DATIVE]) = Ok true.
Proof. vm_compute. repeat split. Qed.

(** ** utg/tests/test_dictionary.py *)
Definition dict_of (ws : list word) : dictionary := match Dictionary U ws with Ok d => d | Err _ => [] end.
Definition found (d : dictionary) (t : str) (f : wordform) : bool := match get_word d t with Ok g => wordform_eqb g f | Err _ => false end.
Definition found_word (d : dictionary) (t : str) (w : word) : bool := match get_word d t with Ok g => word_eqb (wf_word g) w | Err _ => false end.
Definition noun_x := patch (test_word WT_NOUN (u "w-") []) [u "x1"; u "x2"; u "x3"].
Definition verb_y := patch (test_word WT_VERB (u "w-") []) [u "y1"; u "x2"; u "y3"].
(** test_add_word__duplicate_normal_form, __inverse_add_order *)
Example test_add_word__duplicate_normal_form :
  let verb := patch (test_word WT_VERB (u "w-") []) [u "x1"; u "y2"; u "y3"] in
  forallb (fun d => match get_word d (u "x1"), get_word d (u "x2"), get_word d (u "y2") with
                    | Ok a, Ok b, Ok c => wt_eqb (w_type (wf_word a)) WT_NOUN && wt_eqb (w_type (wf_word b)) WT_NOUN && wt_eqb (w_type (wf_word c)) WT_VERB
                    | _, _, _ => false
                    end) [dict_of [noun_x; verb]; dict_of [verb; noun_x]] = true.
Proof. vm_compute. reflexivity. Qed.
(** test_add_order__type, __forms, __manhattan, __on_word *)
Definition both_orders (t : str) (a b expected : word) : bool := found_word (dict_of [a; b]) t expected && found_word (dict_of [b; a]) t expected.
Example test_add_order :
  let x1 w := patch w [u "x1"] in
  let noun := x1 (test_word WT_NOUN (u "w-") []) in let verb := x1 (test_word WT_VERB (u "w-") []) in
  let verb2 := patch (test_word WT_VERB (u "w-") []) [u "x2"] in
  let many := x1 (test_word WT_VERB (u "w-") [NUMBER_PLURAL; CASE_DATIVE; TIME_FUTURE]) in
  let few := x1 (test_word WT_VERB (u "w-") [TIME_FUTURE; PERSON_SECOND]) in
  both_orders (u "x1") noun verb noun && both_orders (u "x1") verb verb2 verb
  && both_orders (u "x1") many few few && both_orders (u "x1") many many many = true.
Proof. vm_compute. reflexivity. Qed.
(** test_add_word__duplicates_in_one_word; test_add_word__duplicates_in_defferent_words, __inverse_add; test_get_word, test_has_word, test_get_word__no_words *)
Example test_duplicates_in_one_word :
  let w := patch (test_word WT_NOUN (u "w-") []) [u "x1"; u "x2"; u "x1"] in let d := dict_of [w] in
  found d (u "x1") (wf w [NOUN_FORM_NORMAL; CASE_NOMINATIVE; NUMBER_SINGULAR]) && found d (u "x2") (wf w [NOUN_FORM_NORMAL; CASE_GENITIVE; NUMBER_SINGULAR]) && negb (has_word d (u "x3")) = true.
Proof. vm_compute. reflexivity. Qed.
Example test_get_word : forallb (fun d =>
    found d (u "x1") (wf noun_x [NOUN_FORM_NORMAL; CASE_NOMINATIVE; NUMBER_SINGULAR]) &&
    found d (u "x2") (wf noun_x [NOUN_FORM_NORMAL; CASE_GENITIVE; NUMBER_SINGULAR]) &&
    found d (u "x3") (wf noun_x [NOUN_FORM_NORMAL; CASE_DATIVE; NUMBER_SINGULAR]) &&
    found d (u "y1") (wf verb_y [VERB_FORM_INFINITIVE]) &&
    found d (u "y3") (wf verb_y [GENDER_NEUTER; VERB_FORM_INDICATIVE; TIME_PAST; NUMBER_SINGULAR]) &&
    negb (has_word d (u "y2")) && negb (has_word d (u "z")) && forallb (has_word d) [u "x1"; u "x2"; u "x3"; u "y1"; u "y3"] &&
    match get_word d (u "z") with Err (NoWordsFoundError t) => str_eqb t (u "z") | _ => false end)
  [dict_of [noun_x; verb_y]; dict_of [verb_y; noun_x]] = true.
Proof. vm_compute. reflexivity. Qed.

(** ** utg/tests/test_lexicon.py *)
Section LexiconTests.
  Let add (l : lexicon Z str Z) k t r := add_template Z.eqb l k t r.
  Let nearest (l : lexicon Z str Z) k r := get_nearest_templates Z.eqb Z.eqb l k r.
  Open Scope Z_scope.
  (** test_get_random_template__restrictions *)
  Definition lex1 : lexicon Z str Z := add (add (add [] 1 (u "template_1") []) 1 (u "template_2") [1; 2]) 1 (u "template_3") [1; 3].
  Example test_get_random_template__restrictions :
    map (get_templates Z.eqb Z.eqb lex1 1) [[]; [1]; [2]; [3]; [1; 2]; [1; 3]; [2; 3]; [1; 2; 3]] =
    [[u "template_1"]; [u "template_1"]; [u "template_1"]; [u "template_1"]; [u "template_1"; u "template_2"]; [u "template_1"; u "template_3"]; [u "template_1"];
     [u "template_1"; u "template_2"; u "template_3"]] /\
    forall rnd, get_random_template Z.eqb Z.eqb rnd lex1 3 [] = Err UnknownLexiconKeyError.
  Proof. split; [vm_compute; reflexivity | intros; reflexivity]. Qed.
  (** test_get_nearest_templates *)
  Definition lex2 : lexicon Z str Z :=
    add (add (add (add (add (add (add [] 1 (u "template_1") [1]) 2 (u "template_2") [2]) 1 (u "template_3") [1; 3]) 1 (u "template_4") [1; 4]) 1 (u "template_5") [3; 4])
      1 (u "template_6") [2; 1; 3; 4]) 1 (u "template_7") [2].
  Example test_get_nearest_templates :
    map (nearest lex2 1) [[5]; [1; 2; 3; 4; 5; 6]; [1; 3]; [1; 3; 4]; [1; 2]] =
    [[]; [u "template_6"]; [u "template_3"]; [u "template_3"; u "template_4"; u "template_5"]; [u "template_1"; u "template_7"]].
  Proof. vm_compute. reflexivity. Qed.
  (** test_get_random_nearest_template__no_key, __no_templates *)
  Example test_get_random_nearest_template :
    (forall rnd, get_random_nearest_template Z.eqb Z.eqb rnd lex2 3 [] = Err UnknownLexiconKeyError) /\
    (forall rnd, get_random_nearest_template Z.eqb Z.eqb rnd lex2 2 [4] = Err NoTemplatesWithSpecifiedRestrictions).
  Proof. split; intros; reflexivity. Qed.
End LexiconTests.

(** ** utg/tests/test_templates.py.  The externals of parse are a list of names there: any values do here. *)
Definition named (l : list str) : externals := map (fun n => (n, wf0 dream)) l.
Definition subst_is (r : result substitution) (id : str) (deps : list dependency) : bool :=
  match r with Ok s => substitution_eqb s {| s_id := id; s_deps := deps |} | Err _ => false end.
Definition ext12 := named [u "external_1"; u "external_2"].
(** test_parse__no_slugs, __single_slug, __default_properties, __wrong_verbose_id, test_parse, __word_type, __upper_case *)
Example test_substitution_parse :
  parse_substitution U [] [] = Err (WrongDependencyFormatError []) /\ parse_substitution U (u "[]") [] = Err (WrongDependencyFormatError (u "[]")) /\
  subst_is (parse_substitution U (u "[bla-bla]") (named [u "bla-bla"])) (u "bla-bla") [] = true /\
  subst_is (parse_substitution U (u "[bla-bla|]") (named [u "bla-bla"])) (u "bla-bla") [DProps (P [])] = true /\
  parse_substitution U (u "[bla-bla|unknown|вы-вы]") (named [u "bla-bla"; u "вы-вы"]) = Err (UnknownVerboseIdError (u "unknown")) /\
  subst_is (parse_substitution U (u "[bla-bla|external_1|дт|external_2|вн,личн]") (named [u "bla-bla"; u "external_1"; u "external_2"])) (u "bla-bla")
    [DExt (u "external_1"); DProps (P [CASE_DATIVE]); DExt (u "external_2"); DProps (P [CASE_ACCUSATIVE; PRONOUN_CATEGORY_PERSONAL])] = true /\
  subst_is (parse_substitution U (u "[bla-bla|гл]") (named [[]])) (u "bla-bla") [DProps (P [P_WORD_TYPE WT_VERB])] = true /\
  subst_is (parse_substitution U (u "[Bla-bla]") (named [[]])) (u "bla-bla") [DProps (P [WORD_CASE_UPPER])] = true.
Proof. vm_compute. repeat split. Qed.
(** test_merge_properties__* *)
Example test_merge_properties :
  let word := test_word WT_NOUN (u "w-") [CASE_DATIVE; GRADE_COMPARATIVE] in let e := wf0 word in let ext := [(u "external", e)] in
  let run t ext1 := match parse_substitution U t (named [u "external"]) with Ok s => list_properties ext1 (s_deps s) | Err x => Err x end in
  run (u "[bla-bla]") [] = Ok ([], []) /\
  run (u "[bla-bla|external]") [] = Err (ExternalDependecyNotFoundError (u "external")) /\
  run (u "[bla-bla|дт,сравн]") [] = Ok ([AProps (P [CASE_DATIVE; GRADE_COMPARATIVE])], []) /\
  run (u "[bla-bla|external]") ext = Ok ([AProps (P [CASE_DATIVE; GRADE_COMPARATIVE])], [e]) /\
  run (u "[bla-bla|external|вн,буд]") ext = Ok ([AProps (w_props word); AProps (P [CASE_ACCUSATIVE; TIME_FUTURE])], [e]) /\
  run (u "[bla-bla|вн,буд|external]") ext = Ok ([AProps (P [CASE_ACCUSATIVE; TIME_FUTURE]); AProps (w_props word)], [e]).
Proof. vm_compute. repeat split. Qed.
(** TemplateTests: test_parse, test_parse__percent_symbol, test_serialization *)
Example test_template_parse :
  let (t, r) := parse_template U new_template (u "[external_1|загл] 1 [ед3|external_2|буд] 2 [external_2|тв,ед]") ext12 in
  let (t', r') := parse_template U new_template (u "[external_1|загл] 1 [ед3|external_2|буд] 2% [external_2|тв,ед]") ext12 in
  r = Ok tt /\ t_text t = Some (u "%s 1 %s 2 %s") /\ r' = Ok tt /\ t_text t' = Some (u "%s 1 %s 2%% %s") /\
  list_eqb substitution_eqb (t_subs t)
    [{| s_id := u "external_1"; s_deps := [DProps (P [WORD_CASE_UPPER])] |};
     {| s_id := u "ед3"; s_deps := [DExt (u "external_2"); DProps (P [TIME_FUTURE])] |};
     {| s_id := u "external_2"; s_deps := [DProps (P [CASE_INSTRUMENTAL; NUMBER_SINGULAR])] |}] = true /\
  match serialize_template t with
  | Ok d => match deserialize_template d with Ok t2 => serialize_template t2 = Ok d | Err _ => False end
  | Err _ => False
  end.
Proof. vm_compute. repeat split. Qed.
(** test_substitute, test_substitute__percent_symbol *)
Definition w3 (p1 p2 p3 : list prop) : dictionary :=
  dict_of [test_word WT_NOUN (u "w-") p1; test_word WT_NOUN (u "x-") p2; test_word WT_NOUN (u "y-") p3].
Definition FI := [GENDER_FEMININE; ANIMALITY_INANIMATE].
Example test_substitute :
  let d := w3 FI FI (FI ++ [NUMBER_PLURAL]) in
  let run t := match get_word d (u "x-нс,ед,им"), get_word d (u "y-нс,мн,им") with
               | Ok a, Ok b => substitute U (fst (parse_template U new_template t ext12)) [(u "external_1", a); (u "external_2", b)] d
               | _, _ => Err KeyError
               end in
  run (u "[external_1|загл] 1 [w-нс,ед,тв|external_2|буд] 2 [external_2|тв,ед]") = Ok (u "X-нс,ед,им 1 w-нс,мн,им 2 y-нс,мн,тв") /\
  run (u "[external_1|загл] 1 [w-нс,ед,тв|external_2|буд] 2% [external_2|тв,ед]") = Ok (u "X-нс,ед,им 1 w-нс,мн,им 2% y-нс,мн,тв").
Proof. vm_compute. split; reflexivity. Qed.
(** test_get_undictionaried_words *)
Example test_get_undictionaried_words :
  let d := w3 (FI ++ [NUMBER_PLURAL]) FI (FI ++ [NUMBER_PLURAL]) in
  get_undictionaried_words (fst (parse_template U new_template (u "[external_1|загл] 1 [x-нс,ед,тв|external_2|буд] 2 [слово|тв,ед] [бла-бла]") ext12)) ext12 d
  = [u "слово"; u "бла-бла"].
Proof. vm_compute. reflexivity. Qed.

(** ** utg/tests/test_general.py *)
(** EXPECTED_ORDER; test__properties_list, test_scheme_orders *)
Definition EXPECTED_ORDER : list relation :=
  [R_VERB_FORM; R_ADJECTIVE_FORM; R_PARTICIPLE_FORM; R_NOUN_FORM; R_ADJECTIVE_CATEGORY; R_PRONOUN_CATEGORY; R_GRADE; R_TIME; R_VOICE; R_ASPECT; R_ANIMALITY;
   R_NUMBER; R_CASE; R_PERSON; R_GENDER; R_INTEGER_FORM; R_WORD_CASE; R_DEPENDENCY_MODE; R_PREPOSITION_FORM; R_WORD_TYPE].
Fixpoint index_of (g : relation) (l : list relation) : nat :=
  match l with [] => 0 | x :: l' => if rel_eqb x g then 0 else S (index_of g l') end.
Fixpoint increasing (l : list nat) : bool :=
  match l with a :: ((b :: _) as l') => Nat.ltb a b && increasing l' | _ => true end.
Example test_scheme_orders :
  forallb (fun g => mem rel_eqb g EXPECTED_ORDER) all_relations && forallb (fun g => mem rel_eqb g all_relations) EXPECTED_ORDER
  && forallb (fun t => increasing (map (fun g => index_of g EXPECTED_ORDER) (schema t))) all_word_types = true.
Proof. vm_compute. reflexivity. Qed.
(** test_restrictions_orders, test_only_schema_properties_in_restrictions.  The second passes although
    NUMBER.PLURAL: (GENDER,) is declared for nouns, whose schema has no GENDER: GENDER is among their properties. *)
Example test_restrictions_orders :
  forallb (fun t => forallb (fun pr => forallb (fun g =>
      Nat.ltb (index_of (rel_of (fst pr)) EXPECTED_ORDER) (index_of g EXPECTED_ORDER)
      && mem rel_eqb g (schema t ++ map fst (type_properties t)) && mem rel_eqb (rel_of (fst pr)) (schema t ++ map fst (type_properties t))) (snd pr)) (RESTRICTIONS t)) all_word_types = true.
Proof. vm_compute. reflexivity. Qed.
(** test_presets *)
Example test_presets :
  forallb (fun os => forallb (fun t =>
      negb (mem rel_eqb (rel_of (fst os)) (schema t)) || negb (mem rel_eqb (rel_of (snd os)) (schema t))
      || forallb (fun k => negb (mem (opt_eqb prop_eqb) (Some (fst os)) k) || mem (opt_eqb prop_eqb) (Some (snd os)) k) (map fst (WORDS_CACHES t))) all_word_types) PRESETS = true.
Proof. vm_compute. reflexivity. Qed.
(** test_unique_verbose_ids, test_all_property_types_in_relation *)
Fixpoint no_dup (l : list str) : bool := match l with [] => true | x :: l' => negb (mem str_eqb x l') && no_dup l' end.
Example test_unique_verbose_ids :
  no_dup (flat_map (fun g => map verbose_id (records g)) all_relations)
  && forallb (fun g => match ptype_value g with Some _ => true | None => false end) all_relations = true.
Proof. vm_compute. reflexivity. Qed.
(** test_full_usage: the example of README.rst *)
Example test_full_usage :
  let coins_word := W WT_NOUN
    [u "монета"; u "монеты"; u "монете"; u "монету"; u "монетой"; u "монете"; u "монеты"; u "монет"; u "монетам"; u "монеты"; u "монетами"; u "монетах";
     u "монеты"; u "монет"; u "монетам"; u "монеты"; u "монетами"; u "монетах"] [ANIMALITY_INANIMATE; GENDER_FEMININE] in
  let action0 := W WT_VERB ([u "подарить"; u "подарил"; u "подарило"; u "подарила"; u "подарили"] ++ repeat [] (length (WORDS_CACHES WT_VERB) - 5)) [ASPECT_PERFECTIVE; VOICE_DIRECT] in
  let hero := wf0 (W WT_NOUN
    [u "герой"; u "героя"; u "герою"; u "героя"; u "героем"; u "герое"; u "герои"; u "героев"; u "героям"; u "героев"; u "героями"; u "героях";
     u "герои"; u "героев"; u "героям"; u "героев"; u "героями"; u "героях"] [ANIMALITY_ANIMATE; GENDER_MASCULINE]) in
  let npc := wf0 (W WT_NOUN
    [u "русалка"; u "русалки"; u "русалке"; u "русалку"; u "русалкой"; u "русалке"; u "русалки"; u "русалок"; u "русалкам"; u "русалок"; u "русалками"; u "русалках";
     u "русалки"; u "русалок"; u "русалкам"; u "русалок"; u "русалками"; u "русалках"] [ANIMALITY_ANIMATE; GENDER_FEMININE]) in
  match autofill_missed_forms action0, construct_integer_raw 125 with
  | Ok action, Ok coins =>
      let (t, r) := parse_template U new_template (u "[Npc] [подарил|npc] [hero|дт] [coins] [монета|coins|вн].") (named [u "hero"; u "npc"; u "coins"]) in
      r = Ok tt /\
      substitute U t [(u "hero", hero); (u "npc", npc); (u "coins", coins)] (dict_of [coins_word; action]) = Ok (u "Русалка подарила герою 125 монет.")
  | _, _ => False
  end.
Proof. vm_compute. split; reflexivity. Qed.
