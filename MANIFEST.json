{
 "claims": [
  {
   "property": "C01",
   "status": "proved",
   "theorems": [
    "C01_last_specification_wins",
    "C01_default",
    "C01_is_specified",
    "C01_none_ignored",
    "C01_clone"
   ],
   "note": "In PropProperties.v. Concrete cases that meet the hypotheses: C01_case."
  },
  {
   "property": "C02",
   "status": "proved",
   "theorems": [
    "C02_properties_roundtrip",
    "C02_serialized_keys"
   ],
   "note": "In PropProperties.v. Concrete cases that meet the hypotheses: C02_case."
  },
  {
   "property": "C03",
   "status": "proved",
   "theorems": [
    "C03_foreign_data",
    "C03_error_iff_non_integer_key",
    "C03_key_number_unique",
    "C03_decimal_text"
   ],
   "note": "In PropProperties.v. Concrete cases that meet the hypotheses: C03_case."
  },
  {
   "property": "C04",
   "status": "proved",
   "theorems": [
    "C04_equality_of_properties",
    "C04_equal_properties_agree",
    "C04_manhattan_distance",
    "C04_properties_equivalence",
    "C04_equality_of_words",
    "C04_equal_words_have_equal_hash"
   ],
   "note": "In PropProperties.v. Concrete cases that meet the hypotheses: C04_case."
  },
  {
   "property": "C05",
   "status": "proved",
   "theorems": [
    "C05_equality_of_wordforms",
    "C05_equivalence",
    "C05_equal_hash_without_form_properties",
    "C05_hash_contract_refuted"
   ],
   "note": "In PropProperties.v. Proved counterexamples (findings): C05_hash_contract_refuted. Concrete cases that meet the hypotheses: C05_case."
  },
  {
   "property": "C06",
   "status": "proved",
   "theorems": [
    "C06_identifiers_distinct",
    "C06_identifiers_without_delimiters",
    "C06_identifiers_roundtrip",
    "C06_variable_roundtrip",
    "C06_unicode_ok_inhabited"
   ],
   "note": "In PropProperties.v. Concrete cases that meet the hypotheses: C06_case."
  },
  {
   "property": "C07",
   "status": "proved",
   "theorems": [
    "C07_slots",
    "C07_shipped_slots"
   ],
   "note": "In PropSlots.v. Concrete cases that meet the hypotheses: C07_case."
  },
  {
   "property": "C08",
   "status": "proved",
   "theorems": [
    "C08_bijection",
    "C08_declaration_order",
    "C08_forms_number_and_keys"
   ],
   "note": "In PropSlots.v. Concrete cases that meet the hypotheses: C08_case."
  },
  {
   "property": "C09",
   "status": "proved",
   "theorems": [
    "C09_exactly_one_unrestricted_key",
    "C09_at_most_one_slot",
    "C09_one_slot_unless_banned"
   ],
   "note": "In PropSlots.v. Concrete cases that meet the hypotheses: C09_case."
  },
  {
   "property": "C10",
   "status": "proved",
   "theorems": [
    "C10_form_total",
    "C10_normal_form_total"
   ],
   "note": "In PropSlots.v. Concrete cases that meet the hypotheses: C10_case."
  },
  {
   "property": "C11",
   "status": "proved",
   "theorems": [
    "C11_matching_slot",
    "C11_requested",
    "C11_other_groups_ignored"
   ],
   "note": "In PropSlots.v. Concrete cases that meet the hypotheses: C11_case."
  },
  {
   "property": "C12",
   "status": "proved",
   "theorems": [
    "C12_nearest_fallback",
    "C12_countable_singular",
    "C12_banned_imperative",
    "C12_any_tables",
    "C12_any_tables_refuted"
   ],
   "note": "In PropSlots.v, PropTables.v. Proved counterexamples (findings): C12_any_tables_refuted. Concrete cases that meet the hypotheses: C12_case, C12_any_tables_case."
  },
  {
   "property": "C13",
   "status": "proved",
   "theorems": [
    "C13_none_iff_no_keys",
    "C13_first_of_the_most_similar",
    "C13_available_key_is_its_own_nearest"
   ],
   "note": "In PropSlots.v. Concrete cases that meet the hypotheses: C13_case."
  },
  {
   "property": "C14",
   "status": "proved",
   "theorems": [
    "C14_exact",
    "C14_nearest_is_maximal_exact",
    "C14_priority",
    "C14_nearest_is_maximal",
    "C14_priority_refuted",
    "C14_first_of_ties_refuted",
    "C14_ties_up_to_four",
    "C14_ties_between_shipped_slots"
   ],
   "note": "In PropSlots.v. Proved counterexamples (findings): C14_priority_refuted, C14_first_of_ties_refuted. Concrete cases that meet the hypotheses: C14_case."
  },
  {
   "property": "C15",
   "status": "proved",
   "theorems": [
    "C15_constructor",
    "C15_slots_number"
   ],
   "note": "In PropWords.v. Concrete cases that meet the hypotheses: C15_case."
  },
  {
   "property": "C16",
   "status": "proved",
   "theorems": [
    "C16_word_roundtrip",
    "C16_wrong_number",
    "C16_unknown_type"
   ],
   "note": "In PropWords.v. Concrete cases that meet the hypotheses: C16_case."
  },
  {
   "property": "C17",
   "status": "proved",
   "theorems": [
    "C17_keeps",
    "C17_source",
    "C17_no_gaps_left",
    "C17_nothing_given",
    "C17_idempotent"
   ],
   "note": "In PropWords.v. Concrete cases that meet the hypotheses: C17_case."
  },
  {
   "property": "C18",
   "status": "proved",
   "theorems": [
    "C18_slots_in_order",
    "C18_texts",
    "C18_texts_are_the_forms"
   ],
   "note": "In PropWords.v. Concrete cases that meet the hypotheses: C18_case."
  },
  {
   "property": "C19",
   "status": "proved",
   "theorems": [
    "C19_upper_case",
    "C19_attributes",
    "C19_error"
   ],
   "note": "In PropWords.v. Concrete cases that meet the hypotheses: C19_attributes_case, C19_case."
  },
  {
   "property": "C20",
   "status": "proved",
   "theorems": [
    "C20_history",
    "C20_has_word",
    "C20_has_word_iff",
    "C20_get_word",
    "C20_unknown_text",
    "C20_monotone",
    "C20_get_words",
    "C20_added_word_missing"
   ],
   "note": "In PropDictionary.v. Concrete cases that meet the hypotheses: C20_case."
  },
  {
   "property": "C21",
   "status": "proved",
   "theorems": [
    "C21_first_of_the_best",
    "C21_order"
   ],
   "note": "In PropDictionary.v. Concrete cases that meet the hypotheses: C21_case."
  },
  {
   "property": "C22",
   "status": "proved",
   "theorems": [
    "C22_order_matters_only_for_ties",
    "C22_order_irrelevant_without_twins",
    "C22_order_of_twins_matters_refuted"
   ],
   "note": "In PropDictionary.v. Proved counterexamples (findings): C22_order_of_twins_matters_refuted. Concrete cases that meet the hypotheses: C22_case."
  },
  {
   "property": "C23",
   "status": "proved",
   "theorems": [
    "C23_when_add_word_raises",
    "C23_only_empty_upper_case",
    "C23_registered_prefix",
    "C23_not_atomic_refuted"
   ],
   "note": "In PropDictionary.v. Proved counterexamples (findings): C23_not_atomic_refuted. Concrete cases that meet the hypotheses: C23_case."
  },
  {
   "property": "C24",
   "status": "proved",
   "theorems": [
    "C24_get_templates",
    "C24_has_key",
    "C24_keys_independent"
   ],
   "note": "In PropLexicon.v. Concrete cases that meet the hypotheses: C24_case."
  },
  {
   "property": "C25",
   "status": "proved",
   "theorems": [
    "C25_nearest_templates",
    "C25_candidates_exist"
   ],
   "note": "In PropLexicon.v. Concrete cases that meet the hypotheses: C25_case."
  },
  {
   "property": "C26",
   "status": "proved",
   "theorems": [
    "C26_selection",
    "C26_uniform",
    "C26_errors"
   ],
   "note": "In PropLexicon.v. Concrete cases that meet the hypotheses: C26_case, C26_uniform_case."
  },
  {
   "property": "C27",
   "status": "proved",
   "theorems": [
    "C27_decomposition",
    "C27_parse",
    "C27_parse_error"
   ],
   "note": "In PropSyntax.v. Concrete cases that meet the hypotheses: C27_case."
  },
  {
   "property": "C28",
   "status": "proved",
   "theorems": [
    "C28_literals_verbatim",
    "C28_first_error",
    "C28_no_other_error"
   ],
   "note": "In PropSyntax.v. Concrete cases that meet the hypotheses: C28_case."
  },
  {
   "property": "C29",
   "status": "proved",
   "theorems": [
    "C29_without_percent",
    "C29_percent_doubled",
    "C29_not_the_written_name"
   ],
   "note": "In PropSyntax.v. Concrete cases that meet the hypotheses: C29_case."
  },
  {
   "property": "C30",
   "status": "proved",
   "theorems": [
    "C30_every_variable",
    "C30_parsed",
    "C30_errors"
   ],
   "note": "In PropSyntax.v. Concrete cases that meet the hypotheses: C30_case."
  },
  {
   "property": "C31",
   "status": "proved",
   "theorems": [
    "C31_blank_in_list",
    "C31_outer_blanks"
   ],
   "note": "In PropSyntax.v. Concrete cases that meet the hypotheses: C31_case."
  },
  {
   "property": "C32",
   "status": "proved",
   "theorems": [
    "C32_same_output",
    "C32_equality",
    "C32_roundtrip",
    "C32_parsed"
   ],
   "note": "In PropSerialization.v. Concrete cases that meet the hypotheses: C32_case."
  },
  {
   "property": "C33",
   "status": "proved",
   "theorems": [
    "C33_old_substitutions_kept",
    "C33_second_parse_breaks"
   ],
   "note": "In PropSyntax.v. Concrete cases that meet the hypotheses: C33_case."
  },
  {
   "property": "C34",
   "status": "proved",
   "theorems": [
    "C34_failures",
    "C34_substitute_succeeds"
   ],
   "note": "In PropSubstitution.v. Concrete cases that meet the hypotheses: C34_case, C34_success_case."
  },
  {
   "property": "C35",
   "status": "proved",
   "theorems": [
    "C35_undictionaried",
    "C35_only_own_identifier"
   ],
   "note": "In PropSubstitution.v. Concrete cases that meet the hypotheses: C35_case."
  },
  {
   "property": "C36",
   "status": "proved",
   "theorems": [
    "C36_as_written",
    "C36_capitalised",
    "C36_template",
    "C36_template_capitalised"
   ],
   "note": "In PropSubstitution.v. Concrete cases that meet the hypotheses: C36_case."
  },
  {
   "property": "C37",
   "status": "proved",
   "theorems": [
    "C37_slot",
    "C37_priority",
    "C37_combination_exists"
   ],
   "note": "In PropReadme.v, PropSubstitution.v. Concrete cases that meet the hypotheses: C37_case."
  },
  {
   "property": "C38",
   "status": "proved",
   "theorems": [
    "C38_own_number_overridden",
    "C38_own_plural_kept"
   ],
   "note": "In PropSubstitution.v. Concrete cases that meet the hypotheses: C38_case."
  },
  {
   "property": "C39",
   "status": "proved",
   "theorems": [
    "C39_lower_cased",
    "C39_capitals_unreachable",
    "C39_reachable"
   ],
   "note": "In PropSyntax.v. Concrete cases that meet the hypotheses: C39_case."
  },
  {
   "property": "C40",
   "status": "proved",
   "theorems": [
    "C40_noun_total",
    "C40_adjective_total"
   ],
   "note": "In PropAgreement.v. Concrete cases that meet the hypotheses: C40_case."
  },
  {
   "property": "C41",
   "status": "proved",
   "theorems": [
    "C41_tables_are_functions",
    "C41_noun_table",
    "C41_adjective_table"
   ],
   "note": "In PropAgreement.v. Concrete cases that meet the hypotheses: C41_case."
  },
  {
   "property": "C42",
   "status": "proved",
   "theorems": [
    "C42_noun_like_table",
    "C42_adjective_like_table",
    "C42_noun_table",
    "C42_counted_noun",
    "C42_template"
   ],
   "note": "In PropSubstitution.v. Concrete cases that meet the hypotheses: C42_case, C42_template_case, C42_adjective_case."
  },
  {
   "property": "C43",
   "status": "proved",
   "theorems": [
    "C43_preposition_form",
    "C43_errors",
    "C43_printed"
   ],
   "note": "In PropAgreement.v, PropSubstitution.v. Concrete cases that meet the hypotheses: C43_case, C43_printed_case."
  },
  {
   "property": "C44",
   "status": "proved",
   "theorems": [
    "C44_identity"
   ],
   "note": "In PropAgreement.v. Concrete cases that meet the hypotheses: C44_case."
  },
  {
   "property": "C45",
   "status": "proved",
   "theorems": [
    "C45_classified",
    "C45_unique",
    "C45_sign",
    "C45_last_two_digits"
   ],
   "note": "In PropIntegers.v. Concrete cases that meet the hypotheses: C45_case."
  },
  {
   "property": "C46",
   "status": "proved",
   "theorems": [
    "C46_text",
    "C46_distinct"
   ],
   "note": "In PropIntegers.v. Concrete cases that meet the hypotheses: C46_case."
  },
  {
   "property": "C47",
   "status": "proved",
   "theorems": [
    "C47_histories",
    "C47_schedules",
    "C47_progress"
   ],
   "note": "In PropIntegers.v. Concrete cases that meet the hypotheses: C47_case."
  },
  {
   "property": "C48",
   "status": "proved",
   "theorems": [
    "C48_between_resets",
    "C48_errors_not_cached",
    "C48_unchanged",
    "C48_autofill_harmless",
    "C48_stale_after_autofill"
   ],
   "note": "In PropLazy.v. Concrete cases that meet the hypotheses: C48_case."
  },
  {
   "property": "C49",
   "status": "proved",
   "theorems": [
    "C49_readers",
    "C49_progress",
    "C49_with_deletions",
    "C49_deletion_race_refuted",
    "C49_single_deleter"
   ],
   "note": "In PropLazy.v. Proved counterexamples (findings): C49_deletion_race_refuted. Concrete cases that meet the hypotheses: C49_case."
  },
  {
   "property": "C50",
   "status": "proved",
   "theorems": [
    "C50_migrate",
    "C50_same_key",
    "C50_succeeds",
    "C50_errors",
    "C50_shipped_tables",
    "C50_too_few_forms"
   ],
   "note": "In PropMigrations.v. Concrete cases that meet the hypotheses: C50_case."
  },
  {
   "property": "C51",
   "status": "proved",
   "theorems": [
    "C51_tables_are_current",
    "C51_accepted",
    "C51_identity",
    "C51_unknown_type",
    "C51_pronoun_third_person"
   ],
   "note": "In PropMigrations.v. Concrete cases that meet the hypotheses: C51_case."
  },
  {
   "property": "C52",
   "status": "proved",
   "theorems": [
    "C52_not_importable",
    "C52_importable",
    "C52_m1_keeps_other_types",
    "C52_m1_output_has_current_size",
    "C52_chain",
    "C52_chain_keeps_forms",
    "C52_chain_keeps_pronouns",
    "C52_slots_with_an_old_key"
   ],
   "note": "In PropMigrations.v. Concrete cases that meet the hypotheses: C52_case, C52_noun_case."
  },
  {
   "property": "C53",
   "status": "proved",
   "theorems": [
    "C53_m2_other_types",
    "C53_m2_noun",
    "C53_m2_twelve",
    "C53_m4_other_types",
    "C53_m4_preposition",
    "C53_m5_other_types",
    "C53_m5_participle",
    "C53_m5_idempotent"
   ],
   "note": "In PropMigrations.v. Concrete cases that meet the hypotheses: C53_case."
  },
  {
   "property": "C54",
   "status": "proved",
   "theorems": [
    "C54_deterministic",
    "C54_required_properties_ignored",
    "C54_texts_distinct"
   ],
   "note": "In PropWords.v. Concrete cases that meet the hypotheses: C54_case."
  },
  {
   "property": "C55",
   "status": "proved",
   "theorems": [
    "C55_number_of_syllables",
    "C55_has_fluent_vowel",
    "C55_defined"
   ],
   "note": "In PropWords.v. Concrete cases that meet the hypotheses: C55_case."
  },
  {
   "property": "C56",
   "status": "proved",
   "theorems": [
    "C56_m1_destroys_adjectives",
    "C56_m1_source",
    "C56_m1_participles",
    "C56_m1_mixes_tenses"
   ],
   "note": "In PropMigrations.v. Concrete cases that meet the hypotheses: C56_case."
  },
  {
   "property": "C57",
   "status": "proved",
   "theorems": [
    "C57_comparative_is_short_plural",
    "C57_comparatives_are_lost",
    "C57_old_table_has_comparatives"
   ],
   "note": "In PropMigrations.v. Concrete cases that meet the hypotheses: C57_case."
  },
  {
   "property": "C58",
   "status": "proved",
   "theorems": [
    "C58_well_formed",
    "C58_words",
    "C58_wordforms",
    "C58_substitute",
    "C58_dictionaries",
    "C58_constructors",
    "C58_integers",
    "C58_forget"
   ],
   "note": "In PropHeap.v. Concrete cases that meet the hypotheses: C58_case, C58_repaired_case."
  },
  {
   "property": "C59",
   "status": "proved",
   "theorems": [
    "C59_change",
    "C59_built_on_forever",
    "C59_serialize",
    "C59_deserialize",
    "C59_autofill",
    "C59_copy_is_shared"
   ],
   "note": "In PropHeap.v. Concrete cases that meet the hypotheses: C59_case."
  },
  {
   "property": "C60",
   "status": "proved",
   "theorems": [
    "C60_once_read",
    "C60_read_again",
    "C60_registered",
    "C60_stale_refuted"
   ],
   "note": "In PropHeap.v. Proved counterexamples (findings): C60_stale_refuted. Concrete cases that meet the hypotheses: C60_read_again_case, C60_case."
  },
  {
   "property": "C61",
   "status": "proved",
   "theorems": [
    "C61_same_object",
    "C61_different_numbers",
    "C61_outside",
    "C61_spoilt"
   ],
   "note": "In PropHeap.v. Concrete cases that meet the hypotheses: C61_case."
  },
  {
   "property": "C62",
   "status": "proved",
   "theorems": [
    "C62_text",
    "C62_readable",
    "C62_identifies",
    "C62_bytes",
    "C62_bytes_identify",
    "C62_str_refuted"
   ],
   "note": "In PropText.v. Proved counterexamples (findings): C62_str_refuted. Concrete cases that meet the hypotheses: C62_case, C62_bytes_case."
  },
  {
   "property": "C63",
   "status": "proved",
   "theorems": [
    "C63_variable",
    "C63_substitute",
    "C63_unmentioned_external",
    "C63_parse"
   ],
   "note": "In PropLocality.v. Concrete cases that meet the hypotheses: C63_case."
  },
  {
   "property": "C64",
   "status": "proved",
   "theorems": [
    "C64_other_texts",
    "C64_irrelevant_word"
   ],
   "note": "In PropLocality.v. Concrete cases that meet the hypotheses: C64_case."
  },
  {
   "property": "C65",
   "status": "proved",
   "theorems": [
    "C65_concatenation",
    "C65_only_at_its_place"
   ],
   "note": "In PropLocality.v. Concrete cases that meet the hypotheses: C65_case."
  },
  {
   "property": "C66",
   "status": "proved",
   "theorems": [
    "C66_understood",
    "C66_every_form"
   ],
   "note": "In PropReadme.v. Concrete cases that meet the hypotheses: C66_case."
  },
  {
   "property": "C67",
   "status": "proved",
   "theorems": [
    "C67_past_verb",
    "C67_adjective",
    "C67_specified_case_wins",
    "C67_unspecified_case_stays",
    "C67_verb",
    "C67_attribute"
   ],
   "note": "In PropReadme.v, PropVariables.v. Concrete cases that meet the hypotheses: C67_verb_case, C67_adjective_case, C67_attribute_case."
  },
  {
   "property": "C68",
   "status": "proved",
   "theorems": [
    "C68_raised",
    "C68_construct",
    "C68_handlers",
    "C68_no_copies"
   ],
   "note": "In PropExceptions.v. Concrete cases that meet the hypotheses: C68_case."
  },
  {
   "property": "C69",
   "status": "proved",
   "theorems": [
    "C69_answers_are_genuine",
    "C69_never_forgets",
    "C69_finished_call",
    "C69_all_texts",
    "C69_one_writer",
    "C69_rounds",
    "C69_readers",
    "C69_progress",
    "C69_race_refuted"
   ],
   "note": "In PropConcurrent.v. Proved counterexamples (findings): C69_race_refuted. Concrete cases that meet the hypotheses: C69_case, C69_rounds_case."
  },
  {
   "property": "C70",
   "status": "proved",
   "theorems": [
    "C70_some_of_the_calls",
    "C70_nothing_lost",
    "C70_all_calls",
    "C70_keys",
    "C70_not_empty",
    "C70_never_raises",
    "C70_never_forgets_a_key",
    "C70_progress",
    "C70_lost_template_refuted",
    "C70_empty_key_refuted"
   ],
   "note": "In PropLexiconThreads.v. Proved counterexamples (findings): C70_lost_template_refuted, C70_empty_key_refuted. Concrete cases that meet the hypotheses: C70_case."
  },
  {
   "property": "C71",
   "status": "proved",
   "theorems": [
    "C71_only_relevant_groups",
    "C71_silent_dependency",
    "C71_part_of_speech_ignored"
   ],
   "note": "In PropRelevance.v. Concrete cases that meet the hypotheses: C71_case."
  },
  {
   "property": "C72",
   "status": "proved",
   "theorems": [
    "C72_writers_undisturbed",
    "C72_moments",
    "C72_substitute",
    "C72_substitute_undisturbed",
    "C72_substitute_succeeds",
    "C72_undictionaried",
    "C72_checked",
    "C72_get_words",
    "C72_get_words_error",
    "C72_get_words_alone",
    "C72_progress",
    "C72_get_words_error_refuted"
   ],
   "note": "In PropReaders.v. Proved counterexamples (findings): C72_get_words_error_refuted. Concrete cases that meet the hypotheses: C72_case."
  },
  {
   "property": "C73",
   "status": "proved",
   "theorems": [
    "C73_writers_undisturbed",
    "C73_linearisable",
    "C73_some_of_the_calls",
    "C73_sees_returned_calls",
    "C73_progress",
    "C73_race_refuted"
   ],
   "note": "In PropLexReaders.v. Proved counterexamples (findings): C73_race_refuted. Concrete cases that meet the hypotheses: C73_case."
  },
  {
   "property": "C74",
   "status": "proved",
   "theorems": [
    "C74_noun",
    "C74_attribute",
    "C74_pronoun",
    "C74_verb",
    "C74_unique",
    "C74_written_noun",
    "C74_written_verb",
    "C74_composite_verb_is_singular"
   ],
   "note": "In PropCounting.v. Concrete cases that meet the hypotheses: C74_case, C74_pronoun_case."
  },
  {
   "property": "C75",
   "status": "proved",
   "theorems": [
    "C75_table",
    "C75_groups",
    "C75_first_is_default",
    "C75_accepted",
    "C75_rejected"
   ],
   "note": "In PropIdentifiers.v. Concrete cases that meet the hypotheses: C75_case."
  },
  {
   "property": "C76",
   "status": "proved",
   "theorems": [
    "C76_variable",
    "C76_form",
    "C76_normal_form",
    "C76_form_properties_ignored",
    "C76_integer",
    "C76_capitalised"
   ],
   "note": "In PropVariables.v. Concrete cases that meet the hypotheses: C76_case."
  },
  {
   "property": "C77",
   "status": "proved",
   "theorems": [
    "C77_preposition",
    "C77_unique",
    "C77_written",
    "C77_written_case_ignored"
   ],
   "note": "In PropPrepositions.v. Concrete cases that meet the hypotheses: C77_case."
  },
  {
   "property": "C78",
   "status": "proved",
   "theorems": [
    "C78_place",
    "C78_total",
    "C78_length"
   ],
   "note": "In PropPlaces.v. Concrete cases that meet the hypotheses: C78_case."
  },
  {
   "property": "C79",
   "status": "proved",
   "theorems": [
    "C79_literal",
    "C79_phrase",
    "C79_variable",
    "C79_noun",
    "C79_verb",
    "C79_gift",
    "C79_bite",
    "C79_hamsters"
   ],
   "note": "In PropPhrases.v. Concrete cases that meet the hypotheses: C79_case."
  },
  {
   "property": "C80",
   "status": "proved",
   "theorems": [
    "C80_interchangeable",
    "C80_word",
    "C80_template",
    "C80_same_list",
    "C80_get_words",
    "C80_reload",
    "C80_order_of_twins_refuted",
    "C80_equal_externals_refuted"
   ],
   "note": "In PropReload.v. Proved counterexamples (findings): C80_order_of_twins_refuted, C80_equal_externals_refuted. Concrete cases that meet the hypotheses: C80_case."
  },
  {
   "property": "C81",
   "status": "proved",
   "theorems": [
    "C81_parts",
    "C81_object",
    "C81_objects",
    "C81_told",
    "C81_always_told",
    "C81_nothing_to_tell",
    "C81_parsed_again"
   ],
   "note": "In PropSessions.v. Concrete cases that meet the hypotheses: C81_case."
  },
  {
   "property": "C82",
   "status": "proved",
   "theorems": [
    "C82_codes",
    "C82_type_codes",
    "C82_properties_written",
    "C82_word_written",
    "C82_properties_read",
    "C82_word_read",
    "C82_template_written",
    "C82_template_read"
   ],
   "note": "In PropStored.v. Concrete cases that meet the hypotheses: C82_case."
  },
  {
   "property": "C83",
   "status": "proved",
   "theorems": [
    "C83_substitute",
    "C83_undictionaried",
    "C83_serialize",
    "C83_parse",
    "C83_readers",
    "C83_after_parse",
    "C83_returns",
    "C83_readers_return",
    "C83_parse_returns",
    "C83_two_parses_torn_refuted",
    "C83_parse_again_torn_refuted",
    "C83_undictionaried_refuted"
   ],
   "note": "In PropTemplateThreads.v. Proved counterexamples (findings): C83_two_parses_torn_refuted, C83_parse_again_torn_refuted, C83_undictionaried_refuted. Concrete cases that meet the hypotheses: C83_case."
  },
  {
   "property": "C84",
   "status": "proved",
   "theorems": [
    "C84_current_elements",
    "C84_covered",
    "C84_left_alone",
    "C84_retroactive_refuted"
   ],
   "note": "In PropLexShared.v. Proved counterexamples (findings): C84_retroactive_refuted. Concrete cases that meet the hypotheses: C84_case."
  },
  {
   "property": "C85",
   "status": "proved",
   "theorems": [
    "C85_one_class",
    "C85_two_classes",
    "C85_fails_iff",
    "C85_symmetry_refuted",
    "C85_consistent",
    "C85_true_means_one_class",
    "C85_not_equal",
    "C85_hash",
    "C85_unhashable",
    "C85_equal_hash"
   ],
   "note": "In PropCompare.v. Proved counterexamples (findings): C85_symmetry_refuted. Concrete cases that meet the hypotheses: C85_case."
  },
  {
   "property": "C86",
   "status": "proved",
   "theorems": [
    "C86_writers_undisturbed",
    "C86_told",
    "C86_never_fails",
    "C86_undisturbed",
    "C86_progress"
   ],
   "note": "In PropServer.v. Concrete cases that meet the hypotheses: C86_case."
  },
  {
   "property": "C87",
   "status": "proved",
   "theorems": [
    "C87_load_again",
    "C87_add_word_again",
    "C87_meanwhile",
    "C87_template",
    "C87_key_without_templates",
    "C87_template_twice",
    "C87_parse",
    "C87_parse_again",
    "C87_autofill",
    "C87_autofill_again",
    "C87_autofill_differs",
    "C87_integer",
    "C87_lazy",
    "C87_uninterrupted"
   ],
   "note": "In PropInterrupt.v. Concrete cases that meet the hypotheses: C87_case."
  },
  {
   "property": "C88",
   "status": "proved",
   "theorems": [
    "C88_load_is_threads",
    "C88_never_worse",
    "C88_recover",
    "C88_undisturbed",
    "C88_round",
    "C88_again",
    "C88_sequential_load",
    "C88_lone_writer",
    "C88_answer",
    "C88_substitute",
    "C88_substitute_lone",
    "C88_substitute_load"
   ],
   "note": "In PropRecovery.v. Concrete cases that meet the hypotheses: C88_case."
  },
  {
   "property": "C89",
   "status": "proved",
   "theorems": [
    "C89_variable",
    "C89_template",
    "C89_choice",
    "C89_others",
    "C89_template_choice",
    "C89_numbers",
    "C89_six_numbers",
    "C89_six_numbers_template"
   ],
   "note": "In PropChosen.v. Concrete cases that meet the hypotheses: C89_case."
  },
  {
   "property": "C90",
   "status": "proved",
   "theorems": [
    "C90_properties",
    "C90_word_accepted",
    "C90_word_refused",
    "C90_word_valid",
    "C90_word_extra_fields",
    "C90_word_saved",
    "C90_word_json",
    "C90_word_returns",
    "C90_text_as_forms_refuted",
    "C90_object_as_forms_refuted",
    "C90_template_accepted",
    "C90_template_refused",
    "C90_template_valid",
    "C90_template_extra_fields",
    "C90_template_saved",
    "C90_template_json",
    "C90_text_as_list_refuted"
   ],
   "note": "In PropJson.v. Proved counterexamples (findings): C90_text_as_forms_refuted, C90_object_as_forms_refuted, C90_text_as_list_refuted. Concrete cases that meet the hypotheses: C90_case."
  },
  {
   "property": "C91",
   "status": "proved",
   "theorems": [
    "C91_dictionary",
    "C91_lexicon",
    "C91_integer",
    "C91_add_word",
    "C91_answers_are_genuine",
    "C91_substitute",
    "C91_undictionaried",
    "C91_selection",
    "C91_never_forgets",
    "C91_get_words",
    "C91_add_template",
    "C91_templates",
    "C91_progress"
   ],
   "note": "In PropProgram.v. Concrete cases that meet the hypotheses: C91_case."
  },
  {
   "property": "C92",
   "status": "proved",
   "theorems": [
    "C92_percent",
    "C92_one_text",
    "C92_percent_errors",
    "C92_repr",
    "C92_ascii",
    "C92_literal_unique",
    "C92_printable",
    "C92_deserialize_keeps_text",
    "C92_substitute",
    "C92_substitute_errors"
   ],
   "note": "In PropPercent.v, PropPercentTemplates.v. Concrete cases that meet the hypotheses: C92_literals_case, C92_case."
  }
 ]
}
