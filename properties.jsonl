{"id": "C01", "title": "Properties merge: the last specification of a group wins", "statement": "For any sequence of constructor arguments (single properties, other Properties objects, None), Properties(*args).get(g) is the value given for group g by the LAST argument that mentions g, and the library default of g (its first record; None for WORD_TYPE) when no argument mentions it; None arguments change nothing; is_specified(g) is true exactly when some argument mentions g; p.clone(*args) equals Properties(p, *args) and p keeps its content.", "quantifier": "all finite argument sequences, all property groups", "why_tests_cant": "argument sequences are unbounded in number and order; tests fix two or three of them", "anchors": ["utg/words.py:Properties.__init__", "utg/words.py:Properties._update", "utg/words.py:Properties.get", "utg/words.py:Properties.clone", "utg/data.py:DEFAULT_PROPERTIES"]}
{"id": "C02", "title": "Properties survive serialization", "statement": "deserialize(serialize(p)) == p for every Properties object p, also when the integer keys have been turned into decimal strings (as JSON does) and when the entries of the serialized dict come back in any order.", "quantifier": "all Properties objects, all orders of the serialized entries, integer or string keys", "why_tests_cant": "the number of property sets is astronomically large (product over 20 groups) and tests sample one", "anchors": ["utg/words.py:Properties.serialize", "utg/words.py:Properties.deserialize", "utg/relations.py:PROPERTY_TYPE"]}
{"id": "C03", "title": "Deserialization keeps exactly the known entries of foreign data", "statement": "For any dict with integer(-like) keys and integer values, Properties.deserialize does not raise, drops every entry whose group number or value number is unknown, and for the rest yields for each group the value of the last known entry of this group. A text key counts as the integer Python's int() reads from it (blanks around, a sign, digits of any script, single underscores between digits); a key that is not such a text makes it raise ValueError.", "quantifier": "all serialized dicts, including stale or corrupt ones", "why_tests_cant": "inputs written by other versions of the library are unbounded", "anchors": ["utg/words.py:Properties.deserialize"]}
{"id": "C04", "title": "Equality and hash of Properties and Word agree", "statement": "Properties equality is exactly 'the same groups are specified with the same values', whatever the order of insertion; it is an equivalence, equal Properties have equal hash and equal manhattan_distance; Word equality is an equivalence and equal words have equal hash.", "quantifier": "all pairs/triples of Properties and of Words", "why_tests_cant": "a hash/eq contract is a statement about all pairs of values", "anchors": ["utg/words.py:Properties.__eq__", "utg/words.py:Properties.__hash__", "utg/words.py:Properties.manhattan_distance", "utg/words.py:Word.__eq__", "utg/words.py:Word.__hash__"]}
{"id": "C05", "title": "Equality and hash of WordForm agree only without explicit form_properties", "statement": "WordForm equality is an equivalence. Two equal WordForms built without form_properties have equal hash. With explicit form_properties the contract is broken: there are equal WordForms whose hash inputs differ (finding).", "quantifier": "all pairs of word forms", "why_tests_cant": "a hash/eq contract is a statement about all pairs of values", "anchors": ["utg/words.py:WordForm.__eq__", "utg/words.py:WordForm.__hash__"]}
{"id": "C06", "title": "Property identifiers are unambiguous", "statement": "The text identifiers of properties are pairwise distinct over all groups, and for every Properties object p the comma-joined list of the identifiers of its values (in any order) is read back by the template property parser to exactly p. They contain none of the characters that delimit them in a template ( , | [ ] % and blanks), so the round trip also works through a whole template variable [word|ids].", "quantifier": "all Properties objects, all orders of listing", "why_tests_cant": "must hold for every combination of identifiers", "anchors": ["utg/templates.py:Substitution.parse_properties", "utg/logic.py:get_verbose_to_relations", "utg/words.py:Properties.__unicode__", "utg/relations.py"]}
{"id": "C07", "title": "The slots of a word type are exactly the unrestricted key combinations", "statement": "For any schema, restrictions and restricted key parts, a key is a slot iff it has one entry per schema group; the entry is empty exactly when a property chosen at an earlier position restricts that group, and is otherwise one of the group's records; and no restricted key part is contained in it.", "quantifier": "all schemas, restriction tables and restricted parts, all keys", "why_tests_cant": "unit tests check two small schemas", "anchors": ["utg/logic.py:_keys_generator", "utg/logic.py:_restricted_keys_generator"]}
{"id": "C08", "title": "Slot numbering is a bijection in declaration order", "statement": "For any schema, restrictions and restricted parts: no slot key occurs twice; key->number and number->key tables are inverse to each other; numbers are 0..n-1 without gaps; slot keys are listed in lexicographic order of the declaration order of records. For every word type get_forms_number and get_keys agree with these tables.", "quantifier": "all schemas and restriction tables; all slot numbers", "why_tests_cant": "ordering/bijection must hold for every slot of every schema; stored forms lists are positional, so one misnumbered slot corrupts data", "anchors": ["utg/logic.py:_get_cache", "utg/logic.py:get_caches", "utg/words.py:Word.get_keys", "utg/words.py:Word.get_forms_number"]}
{"id": "C09", "title": "Every combination of properties belongs to at most one slot", "statement": "For any schema and restrictions, every full combination of records agrees (on the non-empty entries) with exactly one unrestricted key; hence with at most one slot, and with exactly one unless that key contains a restricted part.", "quantifier": "all schemas, restriction tables, full combinations", "why_tests_cant": "product space; disjointness is a statement about all pairs of slots", "anchors": ["utg/logic.py:_keys_generator", "utg/logic.py:_raw_keys_generator"]}
{"id": "C10", "title": "Form lookup is total", "statement": "For every word accepted by the Word constructor and every Properties object, Word.form / normal_form return one of the word's own forms and never raise.", "quantifier": "all word types, forms lists of the required length, property sets of word and request", "why_tests_cant": "a KeyError would appear for one particular property combination out of thousands", "anchors": ["utg/words.py:Word.form", "utg/words.py:Word._form", "utg/words.py:Word.normal_form", "utg/logic.py:_get_raw_cache", "utg/logic.py:get_raw_caches"]}
{"id": "C11", "title": "Form lookup returns the matching slot, the word's own properties overriding the request", "statement": "Word.form(p) is the form stored in the slot whose key agrees with the requested combination, where each schema group takes the value fixed by the word if the word fixes it, else the requested value, else the default - whenever such a slot exists. Properties outside of the schema do not influence the result.", "quantifier": "all words and requests", "why_tests_cant": "all property combinations of request and word", "anchors": ["utg/words.py:Word.form", "utg/words.py:Properties.get_raw_key", "utg/logic.py:_get_raw_cache"]}
{"id": "C12", "title": "Lookup of a banned combination falls back to a nearest slot", "statement": "When the combination belongs to no slot, the lookup still returns a slot: the one of an admissible combination that is most similar to the request (more equal entries first, then the larger sum of their positions). Concretely: a countable singular noun is looked up as the normal singular of the same case; a banned imperative (3rd person, or 1st person singular) is answered with the infinitive form, whatever the rest of the request (finding). For any other schema (of at most 20 groups) and tables that leave a slot: every combination is answered with a slot number, a combination with a slot with this slot; another one like a combination that is at least as similar to it as every combination with a slot and that has a slot or was answered earlier (so that, unlike with the shipped tables, the answer need not be the most similar slot: finding).", "quantifier": "all words of all word types and all requests; all schemas, restriction tables and banned parts (general part)", "why_tests_cant": "fallbacks depend on float similarity and on insertion order of dict keys", "anchors": ["utg/logic.py:_get_raw_cache", "utg/logic.py:get_nearest_key", "utg/restrictions.py"]}
{"id": "C13", "title": "Nearest key: maximal similarity, first among equals", "statement": "get_nearest_key returns None exactly when no keys are available; otherwise a key from the list, no listed key is more similar (in the binary64 arithmetic the code uses) and every key before it in the list is strictly less similar; if the key itself is available it is returned itself (keys of equal length, up to 1000 elements).", "quantifier": "all keys, all lists of available keys, of any length", "why_tests_cant": "argmax/tie-breaking over unbounded lists", "anchors": ["utg/logic.py:get_nearest_key"]}
{"id": "C14", "title": "Nearest key follows the documented priority in spite of floating point", "statement": "Up to 1000 elements the float comparison never contradicts the exact one: if 100 times the number of matching elements plus the sum of their positions is larger, the similarity is larger, so the chosen key has the largest such total. Hence for keys of at most 20 elements (the longest schema ever used has 7; from 21 on this fails): a key with more matching elements always wins over one with fewer; with equal counts the one whose matching positions have the larger sum wins ('first elements in schema have less priority'). Ties of this exact measure are resolved in favour of the earlier key for keys of at most 4 elements and between slots of every shipped word type, but NOT always from 5 elements on, because float sums differ by one ulp (finding).", "quantifier": "all keys of at most 1000 (resp. 20) elements and all lists of available keys, of any length", "why_tests_cant": "float rounding of all subset sums; tests use 3-element keys", "anchors": ["utg/logic.py:get_nearest_key"]}
{"id": "C15", "title": "The Word constructor rejects exactly wrong numbers of forms", "statement": "Word(type, forms, properties) raises WrongFormsNumberError iff len(forms) differs from the number of slots of the type, otherwise stores its three arguments unchanged.", "quantifier": "all types, forms lists, properties", "why_tests_cant": "all lengths of lists", "anchors": ["utg/words.py:Word.__init__"]}
{"id": "C16", "title": "Words survive serialization", "statement": "Word.deserialize(word.serialize()) == word for every word; deserialize of data with a wrong number of forms raises WrongFormsNumberError, with an unknown type number raises the relation's lookup error.", "quantifier": "all words / all serialized data", "why_tests_cant": "all words", "anchors": ["utg/words.py:Word.serialize", "utg/words.py:Word.deserialize"]}
{"id": "C17", "title": "Autofill fills gaps from the nearest given form and touches nothing else", "statement": "autofill_missed_forms never changes a non-empty form, never changes length, type or properties; each empty form becomes the originally given form of a slot nearest to it (only originally given forms are used as sources, not those filled during the run); with at least one given form no empty form remains, with none the word is unchanged; a second run changes nothing; it never raises.", "quantifier": "all words, all sets of missing forms", "why_tests_cant": "2^148 patterns of missing forms", "anchors": ["utg/words.py:Word.autofill_missed_forms"]}
{"id": "C18", "title": "all_forms enumerates the slots", "statement": "all_forms yields one word form per slot, in slot order, with the slot's properties overridden by the word's own; if the word fixes no group of its schema (and is not forced upper case) the texts are exactly word.forms; in general the i-th text is the form stored for the i-th combination after overriding.", "quantifier": "all words", "why_tests_cant": "all words and slots", "anchors": ["utg/words.py:Word.all_forms", "utg/words.py:WordForm"]}
{"id": "C19", "title": "Upper-casing touches only the first character", "statement": "WordForm.get_form returns the looked-up form unchanged unless WORD_CASE is UPPER, and then the upper-cased first character followed by the unchanged rest; it raises IndexError exactly when the form is empty and upper case is requested.", "quantifier": "all words, properties, case-mapping tables", "why_tests_cant": "all words and characters (including characters whose upper case has several characters)", "anchors": ["utg/words.py:WordForm.get_form"]}
{"id": "C20", "title": "Dictionary finds exactly the forms of the added words", "statement": "After any sequence of successful add_word calls, has_word(t) holds iff some added word has a form with text t; get_word(t) then returns a word form of an added word whose text is t, and raises NoWordsFoundError otherwise; adding words never removes a text; get_words returns, without repeating equal words, exactly the words that some text is recognised as (so an added word is missing from it when each of its texts is recognised as another word - finding).", "quantifier": "all histories of add_word calls, all texts", "why_tests_cant": "unbounded histories", "anchors": ["utg/dictionary.py:Dictionary.add_word", "utg/dictionary.py:Dictionary.has_word", "utg/dictionary.py:Dictionary.get_word", "utg/dictionary.py:Dictionary.get_words"]}
{"id": "C21", "title": "Homonyms are resolved to the best candidate", "statement": "get_word(t) is, among all forms with text t of all words added so far, one that is minimal in (word type number, forms list in lexicographic order, number of non-default properties), and the earliest added one among the minimal.", "quantifier": "all histories, all texts", "why_tests_cant": "unbounded histories and collisions", "anchors": ["utg/dictionary.py:Dictionary.add_word", "utg/words.py:Properties.manhattan_distance"]}
{"id": "C22", "title": "Order of adding words matters only for full ties", "statement": "For two orders of adding the same words, both dictionaries know the same texts, and for each text the chosen candidates have the same type, the same forms list and the same number of non-default properties. If no two distinct words share type and forms list the results are equal. In general they are not: words with the same type and forms and equally many non-default properties are resolved by order (finding).", "quantifier": "all permutations of all histories", "why_tests_cant": "all permutations", "anchors": ["utg/dictionary.py:Dictionary.add_word"]}
{"id": "C23", "title": "Exceptions during add_word", "statement": "add_word raises only for a word with an empty form that is forced upper case. The forms before the failing one stay registered (add_word is not atomic - finding); what is registered satisfies the other dictionary properties.", "quantifier": "all dictionaries and words (crash points inside of add_word)", "why_tests_cant": "all failure points", "anchors": ["utg/dictionary.py:Dictionary.add_word", "utg/words.py:WordForm.get_form"]}
{"id": "C24", "title": "Lexicon returns exactly the admissible templates in insertion order", "statement": "After any sequence of add_template calls, get_templates(key, restrictions) lists, in order of addition and with multiplicity, exactly the templates added under key whose restrictions are a subset of the given ones; has_key(key) iff something was added under key; different keys do not interact.", "quantifier": "all histories, keys, restriction sets", "why_tests_cant": "unbounded histories", "anchors": ["utg/lexicon.py:Lexicon.add_template", "utg/lexicon.py:Lexicon.get_templates", "utg/lexicon.py:Lexicon.has_key"]}
{"id": "C25", "title": "Nearest templates are the admissible templates with the most restrictions", "statement": "The candidates of get_random_nearest_template are exactly the admissible templates whose restriction set has the maximal size among the admissible ones, in insertion order; there are candidates iff there are admissible templates.", "quantifier": "all histories, keys, restriction sets", "why_tests_cant": "unbounded histories and set families", "anchors": ["utg/lexicon.py:Lexicon._get_nearest_templates"]}
{"id": "C26", "title": "Random selection stays within the candidates and errors are exact", "statement": "For every outcome of the random generator get_random_template returns an admissible template and get_random_nearest_template a nearest one; each candidate is returned for some outcome, and as the positions are drawn with equal chances a template is returned in proportion to the number of qualifying calls that added it; UnknownLexiconKeyError is raised iff nothing was added under key, NoTemplatesWithSpecifiedRestrictions iff something was added but nothing is admissible.", "quantifier": "all histories, keys, restrictions, random outcomes", "why_tests_cant": "random outcomes cannot be enumerated by running", "anchors": ["utg/lexicon.py:Lexicon.get_random_template", "utg/lexicon.py:Lexicon.get_random_nearest_template"]}
{"id": "C27", "title": "Template parsing cuts the text into literals and variables without loss", "statement": "For every text, parse finds the variables of its unique leftmost decomposition into literal pieces and variables '[' x ']' (x non-empty without ']'), parses them in order, and the stored template is the text with every '%' doubled and each variable replaced in its own place by '%s' (equal variables, nested '[' and stray brackets included).", "quantifier": "all texts and external names", "why_tests_cant": "all texts; the code uses search-and-replace of the first occurrence, which could hit a wrong place", "anchors": ["utg/templates.py:Template.parse", "utg/templates.py:_VARIABLE_REGEX"]}
{"id": "C28", "title": "Substitution reproduces literal text verbatim", "statement": "If parse succeeds, substitute returns the literal pieces of the original text, unchanged (percent signs included), interleaved with the texts of the substitutions in order; if a substitution raises, substitute raises the error of the first failing one; the formatting step itself never fails.", "quantifier": "all texts, externals, dictionaries", "why_tests_cant": "all texts, including ones with format directives", "anchors": ["utg/templates.py:Template.substitute", "utg/templates.py:Template.parse"]}
{"id": "C29", "title": "Percent signs inside of variables are not preserved", "statement": "A variable without '%' is parsed from exactly its own text. A variable containing '%' is parsed with every '%' doubled, so a word or external whose name contains '%' can not be referred to (finding).", "quantifier": "all texts", "why_tests_cant": "percent signs in all positions", "anchors": ["utg/templates.py:Template.parse"]}
{"id": "C30", "title": "Variable syntax: identifier and dependencies", "statement": "Substitution.parse of '[a|b1|...|bn]' fails with WrongDependencyFormatError iff a is empty; with IndexError iff a is blank but not empty (and no dependency is unknown) (finding); with UnknownVerboseIdError iff some dependency that is not an external name contains an unknown property identifier; otherwise the identifier is a stripped and lower-cased, dependencies are in order an external name or the parsed properties, and an extra UPPER dependency is last iff the stripped identifier starts with an upper-case letter.", "quantifier": "all variables and external names", "why_tests_cant": "all strings", "anchors": ["utg/templates.py:Substitution.parse", "utg/templates.py:Substitution.parse_properties"]}
{"id": "C31", "title": "Blanks around commas in property lists are rejected", "statement": "A property list with a blank next to a comma is rejected with UnknownVerboseIdError although the code strips (the stripped value is discarded) (finding); blanks around the whole dependency are accepted.", "quantifier": "all property lists", "why_tests_cant": "all placements of blanks", "anchors": ["utg/templates.py:Substitution.parse_properties"]}
{"id": "C32", "title": "Templates and substitutions survive serialization", "statement": "Template.deserialize(t.serialize()) == t and Substitution likewise, for every parsed template; substitute on the copy gives the same text or the same error for all externals and dictionaries.", "quantifier": "all templates, externals, dictionaries", "why_tests_cant": "all templates", "anchors": ["utg/templates.py:Template.serialize", "utg/templates.py:Template.deserialize", "utg/templates.py:Substitution.serialize", "utg/templates.py:Substitution.deserialize"]}
{"id": "C33", "title": "A Template object can be parsed only once", "statement": "Calling parse on a template object that already has substitutions keeps the old ones: substitute then raises TypeError when all substitutions can be computed (finding); on a fresh object parse is a function of its arguments only. A failed parse leaves the substitutions parsed so far in the object and the template text unset.", "quantifier": "all histories of parse calls on one object (crash points inside of parse)", "why_tests_cant": "histories of calls", "anchors": ["utg/templates.py:Template.parse", "utg/templates.py:Template.substitute"]}
{"id": "C34", "title": "A template without undictionaried words and with all externals can be substituted", "statement": "If the externals given at substitution cover those given at parsing, get_undictionaried_words is empty, and no dictionary or external word has an empty form (autofill guarantees that), then substitute returns a text and never raises.", "quantifier": "all templates, dictionaries, externals", "why_tests_cant": "absence of exceptions over all grammatical combinations", "anchors": ["utg/templates.py:Template.get_undictionaried_words", "utg/templates.py:Substitution.get_text", "utg/transformators.py"]}
{"id": "C35", "title": "get_undictionaried_words predicts NoWordsFoundError", "statement": "get_undictionaried_words lists, in order with multiplicity, exactly the identifiers for which get_text raises NoWordsFoundError with these externals and dictionary.", "quantifier": "all templates, dictionaries, externals", "why_tests_cant": "all templates", "anchors": ["utg/templates.py:Template.get_undictionaried_words", "utg/dictionary.py:Dictionary.get_word"]}
{"id": "C36", "title": "A dictionary word without dependencies is printed as written", "statement": "For every text t known to the dictionary and not shadowed by an external, the variable with identifier t and no dependencies is substituted by t itself; with only the UPPER dependency by t with an upper-cased first letter (if the word itself does not fix WORD_CASE).", "quantifier": "all dictionaries reachable by add_word, all texts", "why_tests_cant": "property guessing must invert lookup for every slot of every word", "anchors": ["utg/templates.py:Substitution.get_text", "utg/dictionary.py:Dictionary.add_word", "utg/words.py:Word.all_forms"]}
{"id": "C37", "title": "Later dependencies override earlier ones, the word's own properties override all", "statement": "Without integer or preposition agreement, the text printed for a variable is the form of the base word for the combination: for each group the word's own value, else the value from the last dependency mentioning the group, else the value recognised from the base form, else the default.", "quantifier": "all substitutions, externals, dictionaries", "why_tests_cant": "all sequences of dependencies", "anchors": ["utg/templates.py:Substitution._list_propeties", "utg/templates.py:Substitution.get_text", "README.rst"]}
{"id": "C38", "title": "Integer agreement can override the word's own number", "statement": "When a noun depends on an integer the agreement result overrides the noun's own fixed NUMBER, e.g. a plural-only noun with the integer 1 is looked up in its singular slots (finding); without an integer dependency own properties always win.", "quantifier": "all nouns, integers", "why_tests_cant": "all words and integers", "anchors": ["utg/templates.py:Substitution.get_text", "utg/transformators.py:_noun_integer", "utg/words.py:Word.form"]}
{"id": "C39", "title": "Names with capital letters can not be referred to", "statement": "The identifier and the external dependencies of a parsed variable are always lower-cased, so a word or external whose name is not its own lower case is never found through a template (finding); a name that is its own lower case, trimmed and free of delimiters is found.", "quantifier": "all names, lower-casing tables", "why_tests_cant": "all names", "anchors": ["utg/templates.py:Substitution.parse", "utg/templates.py:Substitution.get_text"]}
{"id": "C40", "title": "Integer agreement is total and changes only number, case and noun form", "statement": "Agreement of nouns, pronouns, adjectives, participles and verbs with an integer never raises and leaves every property group other than NUMBER, CASE and NOUN_FORM unchanged; adjectives, participles and verbs also keep NOUN_FORM.", "quantifier": "all property sets", "why_tests_cant": "all property combinations", "anchors": ["utg/transformators.py:_noun_integer", "utg/transformators.py:_adjective_integer"]}
{"id": "C41", "title": "Integer agreement follows the grammar table", "statement": "The NUMBER, CASE (and NOUN_FORM) produced by agreement equal those of the table of Russian numeral government given in the specification, for every integer kind, case, animacy, gender and dependency mode; in semantic mode the case is unchanged and the number is singular only for numerals ending in 'one'.", "quantifier": "all property sets", "why_tests_cant": "all combinations", "anchors": ["utg/transformators.py:_noun_integer", "utg/transformators.py:_adjective_integer"]}
{"id": "C42", "title": "Counted nouns get the right form end to end", "statement": "For every integer n and every noun that fixes none of NOUN_FORM, NUMBER, CASE, DEPENDENCY_MODE, WORD_CASE and INTEGER_FORM, the variable [noun|n] prints: nominative singular if |n| ends in 1 but not 11, genitive singular if it ends in 2-4 but not in 12-14, countable genitive plural otherwise (10^6 and 10^9 included); the same with an explicit case, by the case table.", "quantifier": "all integers, nouns, cases", "why_tests_cant": "all integers", "anchors": ["utg/constructors.py:construct_integer", "utg/transformators.py:_noun_integer", "utg/templates.py:Substitution.get_text", "utg/words.py:Word._form"]}
{"id": "C43", "title": "Preposition form selection", "statement": "The form of a preposition depending on a word is chosen by its last letter and the beginning of the master's own text by the documented rules (alternative form before a one-syllable word with consonant cluster and fluent vowel, after 'в'/'с' before a cluster starting with the same letter, 'об' before non-iotated vowels, 'обо' for the listed words), otherwise its properties are unchanged; only PREPOSITION_FORM can change; it raises IndexError exactly when the preposition or the master text is empty.", "quantifier": "all prepositions, masters, properties", "why_tests_cant": "all words", "anchors": ["utg/transformators.py:_preposition_any", "utg/transformators.py:_consonant_preposition_any", "utg/transformators.py:_vowels_preposition_any", "utg/words.py:Word.has_fluent_vowel", "utg/words.py:Word.number_of_syllables", "utg/words.py:WordForm.starts_with_consonant_cluster"]}
{"id": "C44", "title": "Agreement is the identity for all other pairs of word types", "statement": "transform changes nothing unless the slave is a preposition, or the master is an integer and the slave a noun, pronoun, adjective, verb or participle.", "quantifier": "all pairs of words and properties", "why_tests_cant": "64 pairs of types times all property sets", "anchors": ["utg/transformators.py:transform", "utg/transformators.py:_TRANSFORMATORS"]}
{"id": "C45", "title": "Integers are classified by the Russian rules", "statement": "For every integer n, construct_integer(n) has INTEGER_FORM and NUMBER determined by |n|: MIL_BIL/plural for 10^6 and 10^9; SINGULAR/singular for 1; DUAL/plural for 2,3,4; else PLURAL/plural if the last two digits are 10..19, SINGULAR/plural if the last digit is 1, COMPOSITE_DUAL/plural if it is 2..4, PLURAL/plural otherwise; n and -n are classified alike; beyond 4 and apart from 10^6 and 10^9 only the last two digits matter.", "quantifier": "all integers", "why_tests_cant": "infinitely many integers", "anchors": ["utg/constructors.py:_construct_integer", "utg/constructors.py:INTEGER_PROPERTIES"]}
{"id": "C46", "title": "The printed text of an integer denotes that integer", "statement": "For every integer n the text printed for construct_integer(n) is its canonical decimal notation: reading it back gives n; it is never empty, has no leading zero.", "quantifier": "all integers", "why_tests_cant": "infinitely many integers", "anchors": ["utg/constructors.py:_construct_integer"]}
{"id": "C47", "title": "The integer cache is transparent", "statement": "For every history of calls, and for every interleaving of any number of threads executing construct_integer concurrently, each call returns what the uncached constructor returns for its argument; no call fails.", "quantifier": "all histories and all schedules", "why_tests_cant": "schedules and histories are unbounded", "anchors": ["utg/constructors.py:construct_integer"]}
{"id": "C48", "title": "Lazy properties compute once and may become stale", "statement": "Between resets a lazy property returns the value computed at its first access, and computes only once; if the object is mutated later (word.forms, autofill_missed_forms) number_of_syllables and has_fluent_vowel keep the old value until deleted (finding). If nothing is mutated, cached access equals recomputation.", "quantifier": "all histories of get / delete / mutate operations", "why_tests_cant": "histories", "anchors": ["utg/utils.py:lazy_property", "utg/words.py:Word.number_of_syllables", "utg/words.py:Word.has_fluent_vowel", "utg/words.py:Word.autofill_missed_forms"]}
{"id": "C49", "title": "Lazy properties under concurrency", "statement": "With any number of threads reading a lazy property concurrently and none deleting it, every read returns the function's value and none fails; if a thread deletes it concurrently, a read can fail with AttributeError (finding).", "quantifier": "all schedules", "why_tests_cant": "schedules", "anchors": ["utg/utils.py:lazy_property"]}
{"id": "C50", "title": "Migration by tables keeps every form whose slot still exists", "statement": "For any old and new slot tables (the new one a bijection to 0..n-1), migrate_forms on data with enough forms yields exactly one form per new slot: the form of the nearest old slot, which is the old form of the same key when the key existed; nothing else in the data changes.", "quantifier": "all tables and data", "why_tests_cant": "all tables and forms", "anchors": ["utg/migrations/m_0009_pronoun_modernization.py:migrate_forms", "utg/logic.py:get_nearest_key"]}
{"id": "C51", "title": "The last migration produces words of the current format", "statement": "For every word type and data with as many forms as m_0009's old table, m_0009.migrate does not raise and its result is accepted by Word.deserialize; data of all types other than pronouns with the current number of forms is unchanged by it; a pronoun keeps exactly its third person forms; its new tables are exactly the current slot tables.", "quantifier": "all word data", "why_tests_cant": "all data", "anchors": ["utg/migrations/m_0009_pronoun_modernization.py", "utg/words.py:Word.deserialize", "utg/data.py:WORDS_CACHES"]}
{"id": "C52", "title": "Earlier migrations depend on the current code and can not be chained", "statement": "m_0003 and m_0006 can not even be imported: their tables name VERB_FORM.CONDITIONAL, which the relations no longer have, so importing raises AttributeError (finding); m_0001, m_0007, m_0008 and m_0009 can be imported. m_0001 migrates to the CURRENT tables instead of the tables of its time, so its output is too short for m_0007, which raises IndexError exactly for adjectives and participles (finding). m_0007 - m_0009 do chain in size for every word type: data with enough forms for m_0007 goes through all three, is accepted by Word.deserialize, and every current slot holds the form the data had under the same key before m_0007 (for pronouns: under the key with the third person), except the comparative of adjectives (see C57).", "quantifier": "all word data", "why_tests_cant": "all data", "anchors": ["utg/migrations/m_0001_include_short_forms_in_full.py", "utg/migrations/m_0003_change_verb_forms.py", "utg/migrations/m_0006_per_word_type_restrictions.py", "utg/migrations/m_0007_reduce_words_forms.py", "utg/migrations/m_0008_lower_animiality_nearest_priority.py"]}
{"id": "C53", "title": "Small migrations touch only their word type", "statement": "m_0002 changes only nouns (6 countable forms appended: those of patch 7 if patches exist, else the plural forms 6..11), m_0004 only prepositions (the last form duplicated), m_0005 only participles (property '5' removed, everything else kept); nothing else in the data is changed; m_0005 is idempotent.", "quantifier": "all word data", "why_tests_cant": "all data", "anchors": ["utg/migrations/m_0002_countable_noun_form.py", "utg/migrations/m_0004_new_preposition_form.py", "utg/migrations/m_0005_remove_time_participle_property.py"]}
{"id": "C54", "title": "Test words are deterministic and distinguish all slots", "statement": "create_test_word never raises, ignores the random generator and the required properties of the type (the membership test compares different kinds of records - finding), uses exactly the given properties, and gives each slot the text prefix + identifiers of its key + suffix, all texts being pairwise distinct.", "quantifier": "all types, prefixes, suffixes, properties, random outcomes", "why_tests_cant": "random outcomes, all prefixes", "anchors": ["utg/words.py:Word.create_test_word", "utg/words.py:Word.get_keys"]}
{"id": "C55", "title": "Syllable count and fluent vowel describe the texts of the word", "statement": "For every accepted word number_of_syllables and has_fluent_vowel are defined; number_of_syllables is the number of vowel letters of the first form, but at least 1; has_fluent_vowel holds iff some non-empty later form has a vowel sequence that does not begin with the vowel sequence of the first form.", "quantifier": "all words", "why_tests_cant": "all texts", "anchors": ["utg/words.py:Word.number_of_syllables", "utg/words.py:Word.has_fluent_vowel", "utg/data.py:VOWELS"]}
{"id": "C56", "title": "m_0001 run with the current tables destroys adjectives", "statement": "m_0001 compares the elements of old keys (number, case, gender, animality, grade) position by position with the current keys (grade, animality, number, case, gender). For every adjective data with enough forms all current forms of the result are one and the same text: the old form of (plural, instrumental, -, animate, positive) (finding). In general each current form is the old form of the first old key, in the order of the table, that agrees in most positions with the current key without its first element; a participle keeps number and case of each form, but present forms can get the texts of past forms (finding).", "quantifier": "all adjective data", "why_tests_cant": "all forms; nothing is raised, the damage is in the texts", "anchors": ["utg/migrations/m_0001_include_short_forms_in_full.py:get_nearest_old_index", "utg/data.py:WORDS_CACHES"]}
{"id": "C57", "title": "m_0007 loses the comparative of adjectives", "statement": "After m_0007 (and after the chain m_0007 - m_0009) the comparative slot of an adjective contains its old short plural form, although the old data had comparative forms; these do not influence the result at all: two data that differ only in comparative forms migrate to the same forms (finding).", "quantifier": "all adjective data", "why_tests_cant": "all forms; nothing is raised", "anchors": ["utg/migrations/m_0007_reduce_words_forms.py", "utg/logic.py:get_nearest_key"]}
{"id": "C58", "title": "Objects behave like values as long as lists in use are left alone", "statement": "In every history of calls (constructors, reads and deletions of lazy attributes, autofill, add_word, substitute, construct_integer, serialize, deserialize; forms lists changed in place or autofilled only while nothing read from them is remembered: no lazy attribute, no dictionary entry, no cached integer) every call returns, or raises, what it would on freshly built equal objects: cached attributes, sharing and the order of calls are invisible; constructors return new objects; add_word changes only its dictionary, all other calls change nothing that existed.", "quantifier": "all histories of calls and all objects in them", "why_tests_cant": "sharing and caching errors depend on the history", "anchors": ["utg/words.py:Word", "utg/words.py:WordForm", "utg/utils.py:lazy_property", "utg/dictionary.py:Dictionary.add_word", "utg/templates.py:Template.substitute", "utg/constructors.py:construct_integer"]}
{"id": "C59", "title": "Forms lists are shared between the caller, the word and its serialized data", "statement": "Word keeps the list object it is given, serialize returns that very list, and deserialize keeps the list in the data: changing a list in place changes exactly the words built on it and no others; autofill_missed_forms changes every word built on the same list, so a word made by deserialize(serialize(w)) is not an independent copy: completing it completes w (finding).", "quantifier": "all heaps, lists and words", "why_tests_cant": "aliasing: every history that makes two objects share a list", "anchors": ["utg/words.py:Word.__init__", "utg/words.py:Word.serialize", "utg/words.py:Word.deserialize", "utg/words.py:Word.autofill_missed_forms"]}
{"id": "C60", "title": "A lazy attribute that was read never changes; a registered text stays registered", "statement": "Once WordForm.form, starts_with_consonant_cluster, number_of_syllables or has_fluent_vowel returned a value, the same object returns it after every sequence of operations that does not delete that attribute, in-place changes of forms lists included; deleting it and reading it again gives the value for the object as it is now (for starts_with_consonant_cluster the form has to be deleted as well); a text known to a dictionary stays known. Hence after changing the list of a word in use the word form prints the old text, the dictionary knows the old text only, and a template variable prints the new form (finding).", "quantifier": "all histories of operations, careless ones included", "why_tests_cant": "all later histories", "anchors": ["utg/utils.py:lazy_property", "utg/words.py:WordForm.form", "utg/dictionary.py:Dictionary"]}
{"id": "C61", "title": "The numbers 0..10000 are shared objects", "statement": "construct_integer(n) with 0 <= n <= 10000 returns the same object in every call of a process, different objects for different numbers, and a new object for every call with another number. The shared object is mutable: changing its forms list changes what every later user of the number prints (finding).", "quantifier": "all histories, all integers", "why_tests_cant": "identity of objects over all histories", "anchors": ["utg/constructors.py:construct_integer", "utg/constructors.py:_construct_integer"]}
{"id": "C62", "title": "The text of Properties names exactly the specified values", "statement": "unicode(properties) is, in parentheses and separated by commas, the identifiers of exactly the specified values, ordered by the number of their group; what is inside the parentheses is read by the template syntax as equal properties; two Properties have the same text iff they are equal. __str__ gives the UTF-8 bytes of that text, which also identify the object; being bytes, they make str(properties) a TypeError for every Properties (finding).", "quantifier": "all Properties", "why_tests_cant": "all property sets", "anchors": ["utg/words.py:Properties.__unicode__", "utg/words.py:Properties.__str__", "utg/templates.py:Substitution.parse_properties"]}
{"id": "C63", "title": "A printed text depends only on what its template mentions", "statement": "substitute and get_undictionaried_words depend on the externals only through the names that occur in the template (as an identifier or a dependency), and on the dictionary only through its answers for identifiers that are not externals; adding an unmentioned external changes nothing; parse looks at the names of the externals only.", "quantifier": "all templates, externals and dictionaries", "why_tests_cant": "all pairs of environments", "anchors": ["utg/templates.py:Template.substitute", "utg/templates.py:Substitution.get_text", "utg/templates.py:Template.get_undictionaried_words", "utg/templates.py:Template.parse"]}
{"id": "C64", "title": "Adding a word affects only its own texts", "statement": "add_word (successful or not) leaves get_word and has_word unchanged for every text that is no form of the added word; hence a template none of whose identifiers is a form of the word prints the same.", "quantifier": "all dictionaries, words, texts and templates", "why_tests_cant": "all dictionaries and later lookups", "anchors": ["utg/dictionary.py:Dictionary.add_word", "utg/templates.py:Template.substitute"]}
{"id": "C65", "title": "Variables act in their place only", "statement": "When every opening bracket of the first text is closed within it, parsing and substituting a concatenation is parsing and substituting the parts one after the other: the first error of the parts is the error of the whole, the variables are those of the parts, the printed text is the concatenation. Hence replacing one variable by another changes the text in its place only.", "quantifier": "all texts, externals, dictionaries", "why_tests_cant": "all template texts and splits of them", "anchors": ["utg/templates.py:Template.parse", "utg/templates.py:Template.substitute"]}
{"id": "C66", "title": "Every form can be requested by writing its properties", "statement": "[word|properties] and [word|name|properties|...] are parsed to exactly the written dependencies; for every slot of a word (whose own properties do not contradict it) the variable that lists the identifiers of the slot's properties prints exactly the text of the slot.", "quantifier": "all words, slots, identifiers", "why_tests_cant": "all words and forms", "anchors": ["utg/templates.py:Template.parse", "utg/templates.py:Substitution.get_text", "utg/words.py:Word.form", "README.rst"]}
{"id": "C67", "title": "Past verbs and adjectives agree with the noun as documented", "statement": "[past verb|noun] prints the past form with the number and gender of the noun's form; [adjective|noun] and [adjective|noun|case] print the form with the gender, number and animality of the noun and the written case, else the case the noun's form specifies, else the recognised case. The README's statement that [adjective|hero] takes the nominative of hero is false when hero's form specifies no case: the recognised case stays (finding).", "quantifier": "all verbs, adjectives, nouns, dictionaries", "why_tests_cant": "all words", "anchors": ["README.rst", "utg/transformators.py:transform", "utg/words.py:Properties.clone", "utg/templates.py:Substitution.get_text"]}
{"id": "C68", "title": "The library's own errors are built, described and caught as documented", "statement": "Every raise statement of the library succeeds in building its exception whatever the values are (no KeyError from the message, per cent signs in values are printed as they are), and str(error) is exactly the documented message with these values; every error class is caught by UtgError and by exactly its group's class; an error built by hand needs exactly the arguments its message names; UtgError, WordsError, LexiconError and TransformatorsError can not be instantiated (TypeError), and no error of the library can be copied or pickled (TypeError) (findings).", "quantifier": "all raise statements, values, keyword arguments", "why_tests_cant": "all argument texts", "anchors": ["utg/exceptions.py:UtgError", "utg/words.py:Word.__init__", "utg/templates.py", "utg/lexicon.py", "utg/dictionary.py", "utg/transformators.py"]}
{"id": "C69", "title": "Words can be added concurrently", "statement": "Under every interleaving of concurrent add_word calls (one atomic step per access to the dictionary): get_word answers, at every moment, only with a form that has the text and belongs to a known or added word; a known text stays known; a finished call has the outcome it would have alone and all its texts are known; when all calls have finished exactly the texts of the sequential program are known; a text written by at most one of the calls is answered as in the sequential program (also after any number of rounds of concurrent calls); readers of texts that no call writes are not disturbed; every thread finishes. The preference order between competing forms can be violated by a race (finding).", "quantifier": "all words, numbers of threads, schedules, moments", "why_tests_cant": "all interleavings", "anchors": ["utg/dictionary.py:Dictionary.add_word", "utg/dictionary.py:Dictionary.get_word", "utg/dictionary.py:Dictionary.has_word", "utg/templates.py:Substitution.get_text"]}
{"id": "C70", "title": "Templates can be added concurrently under known keys", "statement": "Under every interleaving of concurrent add_template calls: at every moment the lexicon answers for a key as after its initial calls and then some of the calls for the key that have returned, each once; if the key was known before, or one call only has it, these are all of them (nothing is lost), and in the end there are exactly the templates of the sequential program; known keys stay known; in the end exactly the keys of the sequential program are known and each has a template; no call raises; every thread ends. Two concurrent first calls for a new key can lose a template that readers have already been given, and a reader can meet a key without templates (findings).", "quantifier": "all lexicons, calls, numbers of threads, schedules, moments", "why_tests_cant": "all interleavings", "anchors": ["utg/lexicon.py:Lexicon.add_template", "utg/lexicon.py:Lexicon.get_templates", "utg/lexicon.py:Lexicon.has_key", "utg/lexicon.py:Lexicon.get_random_template"]}
{"id": "C71", "title": "Only the relevant groups of properties influence a printed text", "statement": "What a variable prints depends, for a given base word and given externals among the dependencies, only on the values of the groups the word changes by, of the size of the first letter and, with an integer among the externals, of the groups numeral government looks at; a written dependency that specifies none of these can be left out. In particular a written part of speech never matters: it does not choose between homonyms.", "quantifier": "all words, dependencies, externals, dictionaries", "why_tests_cant": "all property sets and words", "anchors": ["utg/templates.py:Substitution.get_text", "utg/transformators.py:transform", "utg/words.py:Word.form", "utg/words.py:WordForm.get_form"]}
{"id": "C72", "title": "Templates can be substituted and words listed while words are being added", "statement": "Under every interleaving of readers with concurrent add_word calls: readers do not disturb the adding calls; substitute prints for each variable what it prints at some moment of the run (and exactly the sequential text if no added word has a form that the template asks for); once get_undictionaried_words is empty, it stays empty and every substitution that starts later succeeds; get_undictionaried_words names everything unknown at its end and nothing that was known at its start; get_words, if it returns, has the words of entries that existed during the call and misses no text known at its start; every reader ends. get_words can fail with RuntimeError when a text becomes known meanwhile, and only then (finding).", "quantifier": "all dictionaries, words, templates, externals, numbers of threads, schedules, moments", "why_tests_cant": "all interleavings", "anchors": ["utg/templates.py:Template.substitute", "utg/templates.py:Template.get_undictionaried_words", "utg/dictionary.py:Dictionary.get_words", "utg/dictionary.py:Dictionary.add_word"]}
{"id": "C73", "title": "Templates can be selected while templates are being added", "statement": "Under every interleaving of get_templates, the nearest selection and both random selections with concurrent add_template calls: readers do not disturb the adding calls; if the key was known before, or one call only has it, the answer (templates or error) is the one of the sequential function for the lexicon at one moment between the start and the end of the reading call (linearisable), so every call that had returned before is seen; for any key it is the answer after the initial calls and some of the returned calls for the key, each once, or the error that there is no template; every reader ends. With two concurrent first calls for a key the answer can be one of no moment of the run (finding).", "quantifier": "all lexicons, calls, readers, numbers of threads, schedules, moments", "why_tests_cant": "all interleavings", "anchors": ["utg/lexicon.py:Lexicon.get_templates", "utg/lexicon.py:Lexicon._get_nearest_templates", "utg/lexicon.py:Lexicon.get_random_template", "utg/lexicon.py:Lexicon.get_random_nearest_template", "utg/lexicon.py:Lexicon.add_template"]}
{"id": "C74", "title": "Phrases with numbers: from the template's text to the printed word", "statement": "A variable that depends on one integer, [noun|n], [adjective|n|noun|вн], [verb|n|сзв] ..., is understood and prints the form that the README's dependence modes and the grammar of Russian numerals prescribe for n: nouns, full adjectives and participles, indicative verbs, for every n (1/21, 2-4, 22/33, 5/11/100, a million or billion), case, animality, gender and both modes; the prescription is unambiguous. (Findings: beside 22, 33, ... adjectives are printed in the genitive singular and verbs in the singular.)", "quantifier": "all integers, words, dictionaries, externals, written properties", "why_tests_cant": "all integers and words", "anchors": ["README.rst", "utg/templates.py:Template.parse", "utg/templates.py:Substitution.get_text", "utg/constructors.py:construct_integer", "utg/transformators.py:_noun_integer", "utg/transformators.py:_adjective_integer"]}
{"id": "C75", "title": "The identifiers of properties are those of the README", "statement": "A text is understood as a property identifier iff the README lists it, with the meaning and under the group described there; each property has exactly one identifier; what is used when nothing is specified is the first identifier listed for the group. A comma-separated list after a bar is accepted iff every non-empty element is listed; then exactly the listed meanings are specified, the last of each group; otherwise UnknownVerboseIdError names the first element that is not listed.", "quantifier": "all texts written after a bar", "why_tests_cant": "all texts", "anchors": ["README.rst", "utg/relations.py", "utg/templates.py:Substitution.parse", "utg/words.py:Properties.get", "utg/data.py:VERBOSE_TO_PROPERTIES"]}
{"id": "C76", "title": "Variables without dependencies", "statement": "[name] prints the external name in the form its properties choose (WordForm.form, when no separate form properties are given), hence WordForm(word) in the normal form of the word and an integer in canonical decimal notation; written [Name], with its first letter upper-cased. (Finding: form_properties given to WordForm are ignored when the form is printed.)", "quantifier": "all externals, dictionaries, names, integers", "why_tests_cant": "all word forms and names", "anchors": ["README.rst", "utg/templates.py:Template.substitute", "utg/templates.py:Substitution.get_text", "utg/words.py:WordForm.form", "utg/words.py:Word.normal_form"]}
{"id": "C77", "title": "Prepositions: from the template's text to the printed word", "statement": "[preposition|..|..] is understood and prints the form of the preposition that the rules ask for: the special form (обо) or the alternative form (во, об) if one of the externals named asks for it - the last one that asks decides -, else the written or recognised form; which external asks depends on the external's own form only. (Finding: the case in which the external is printed beside the preposition is not looked at and can not be written: [в|hero|пр] prints what [в|hero] prints.)", "quantifier": "all externals, dictionaries, prepositions, lists of dependencies", "why_tests_cant": "all texts and lists of dependencies", "anchors": ["README.rst", "utg/templates.py:Template.substitute", "utg/templates.py:Substitution.get_text", "utg/transformators.py:_preposition_any"]}
{"id": "C78", "title": "Where each form stands in the list of forms", "statement": "The order of the list of forms given to Word is the documented one: a word answers a request for a combination of properties with the form at the place that an explicit table (declension by animality, number, case, gender; tenses by number and person ...) gives; each combination has exactly one place; the lists have exactly 18, 101, 48, 20, 148, 1, 1 and 3 forms and every place is the answer to some request. (An imperative of the third person, or of the first person singular, is answered with the infinitive.)", "quantifier": "all words, property sets, combinations", "why_tests_cant": "all words and property sets", "anchors": ["README.rst", "utg/words.py:Word.form", "utg/words.py:Word.__init__", "utg/data.py:WORDS_CACHES", "utg/data.py:INVERTED_WORDS_CACHES", "utg/restrictions.py"]}
{"id": "C79", "title": "Whole phrases: the README's examples for all words and numbers", "statement": "A template that consists of finished pieces prints what the pieces print, one after the other. A variable without numbers prints the form at the place of the values of its groups: the word's own properties, else the written dependencies from the last to the first, else what is recognised in the written word, else the default; written with a capital letter it is printed with one. Hence the README's templates \"[Npc] [подарил|npc] [hero|дт] [coins] [монета|coins|вн].\", \"Вчера [mob] [укусил|mob] [hero|вн].\" and \"[n] [красивый|n] [хомячок|n] [побежал|n] в норку\" (with full and semantic dependence) print, for all nouns, verbs, adjectives, names and numbers, the phrase that the grammar prescribes.", "quantifier": "all words, names, numbers, externals, dictionaries", "why_tests_cant": "all words and numbers", "anchors": ["README.rst", "utg/templates.py:Template.parse", "utg/templates.py:Template.substitute", "utg/templates.py:Substitution.get_text", "utg/words.py:Word.form", "utg/constructors.py:construct_integer", "utg/transformators.py:transform"]}
{"id": "C80", "title": "Equal objects are interchangeable; what is saved and loaded again prints the same", "statement": "Substituting gives the same text or the same exception (and reports the same unknown words) when the template is replaced by one with the same text and variables, the externals by ones of the same names whose word forms belong to words of the same type and forms and specify the same values, and the dictionary by one that answers alike. A dictionary rebuilt from its list of words, each serialized, passed through JSON and deserialized, answers alike. A dictionary rebuilt, in any order, from the words of get_words recognises the same texts as equally good candidates, and answers alike unless two of its words have the same type and forms but different properties (then the printed text can change, a finding). Rebuilding does not raise if the first construction did not. Together: a template, a dictionary and the externals saved and loaded print the same. (== on word forms ignores the values given for the form only, so externals that are == can print different prepositions: a finding.)", "quantifier": "all templates, dictionaries, lists of words, orders, externals, trips through JSON", "why_tests_cant": "all words, orders and templates", "anchors": ["utg/dictionary.py:Dictionary.get_words", "utg/dictionary.py:Dictionary.add_word", "utg/words.py:Word.serialize", "utg/words.py:Word.deserialize", "utg/words.py:WordForm.__eq__", "utg/templates.py:Template.serialize", "utg/templates.py:Template.deserialize", "utg/templates.py:Template.substitute"]}
{"id": "C81", "title": "Templates, lexicon and dictionary used together", "statement": "In any history of creating, loading and parsing Template objects, adding them to a lexicon and adding words to a dictionary: the lexicon answers with the very objects that were added and which ones depends on the add_template calls only; the value of a Template object is what its creation and its own parse calls make it, whatever else happens and under however many keys it was added; a text told (substitute of a randomly selected template) is the text of a qualified template as it is at that moment; a text is told for every random choice if some template is admissible and each admissible one was parsed exactly once, without an exception, with names given now, all its words are known and all words are complete; if none is admissible exactly the library's own error for an unknown key or unmet restrictions is raised. (A Template object parsed again is broken under every key: a finding.)", "quantifier": "all histories, keys, restrictions, random choices, templates, words", "why_tests_cant": "all histories and random choices", "anchors": ["utg/lexicon.py:Lexicon.add_template", "utg/lexicon.py:Lexicon.get_random_template", "utg/lexicon.py:Lexicon.get_random_nearest_template", "utg/templates.py:Template.parse", "utg/templates.py:Template.substitute", "utg/templates.py:Template.deserialize", "utg/dictionary.py:Dictionary.add_word"]}
{"id": "C82", "title": "Stored data means what it meant: the numbers in serialized words and templates", "statement": "A serialized word holds exactly the documented number of its part of speech, its list of forms and one entry \"group number: record number\" for every specified property, with the numbers of utg/relations.py; a serialized template holds its text, the identifiers, names as texts and properties as such dicts. Reading goes by the same numbers: for every group the last known entry counts, unknown numbers are ignored, an unknown part of speech is refused. Every record has exactly one code and a code means at most one record.", "quantifier": "all Properties objects, words and templates; all dicts with integer keys (as ints or as decimal texts), all stored words and templates made of them", "why_tests_cant": "files written by any earlier run must be readable: a round-trip test passes as well when the numbers are changed on both sides, and only examples are tested", "anchors": ["utg/relations.py", "utg/words.py:Properties.serialize", "utg/words.py:Properties.deserialize", "utg/words.py:Word.serialize", "utg/words.py:Word.deserialize", "utg/templates.py:Substitution.serialize", "utg/templates.py:Template.serialize"]}
{"id": "C83", "title": "One Template object shared by several threads", "statement": "While one thread runs parse(text, externals) on a new Template, any number of other threads call substitute, get_undictionaried_words and serialize on it, with any interleaving: a substitute call that returns or raises gives exactly what it gives for the finished template, or raises TypeError - it never returns a partial or wrong text; get_undictionaried_words gives a first part of the list for the finished template; serialize gives the data of the finished template or data without a text; the parse itself is not disturbed: its outcome and the object it leaves are those of a parse that ran alone. A call that begins after the end of the parse gets the answer for the finished template; calls on a template that nobody parses get the answers they get one after the other and do not change it. Every call returns after a number of moves of its own thread that is bounded by the number of variables. (Findings: two parses at once, or parsing a second text into a template in use, can give another thread one text with the other's words; the check for unknown words can be empty too early.)", "quantifier": "every unicode environment, every text and externals of the parse, every list of concurrent calls with their externals and dictionaries, every schedule of the threads, every moment; for readers alone every Template object", "why_tests_cant": "The number of interleavings grows exponentially and a test that happens to hit the window between the last append and the store of the text can not be written reliably", "anchors": ["utg/templates.py: Template.parse, Template.substitute, Template.get_undictionaried_words, Template.serialize"]}
{"id": "C84", "title": "The restrictions of a lexicon are shared with the caller", "statement": "add_template keeps the very set of restrictions it is given. After any history of making sets, changing them and adding templates, has_key, get_templates, the nearest selection and both random selections answer exactly like a lexicon whose add_template calls had been given the elements the sets have now; if no set is changed after it was given to add_template (frozensets, for instance) these are the elements at the time of the call, and C24-C26 apply. A set changed afterwards silently loses a template or makes it available where its restrictions forbade it (finding).", "quantifier": "all histories, sets, keys, templates, restrictions, random outcomes", "why_tests_cant": "aliasing over all histories", "anchors": ["utg/lexicon.py:Lexicon.add_template", "utg/lexicon.py:Lexicon.get_templates", "utg/lexicon.py:Lexicon._get_nearest_templates", "utg/lexicon.py:Lexicon.get_random_template", "utg/lexicon.py:Lexicon.get_random_nearest_template"]}
{"id": "C85", "title": "Comparing objects of different classes", "statement": "Between two objects of one class (Properties, Word, WordForm, Substitution, Template) == never fails and means: the same value. Between objects of different classes a Properties or a Word on the left answers False; a WordForm, Substitution or Template on the left raises AttributeError, also when compared with None, a number or a string, on either side (finding: == is not symmetric, word == form is False and form == word an error). Two answers never contradict each other. != is the negation of == and fails when == fails. hash() works for exactly Properties, Word and WordForm (Substitution and Template: TypeError); equal Properties and equal Words have equal hashes.", "quantifier": "all pairs of objects", "why_tests_cant": "the protocol ranges over all pairs of objects of all classes", "anchors": ["utg/words.py:Properties.__eq__", "utg/words.py:Word.__eq__", "utg/words.py:WordForm.__eq__", "utg/templates.py:Substitution.__eq__", "utg/templates.py:Template.__eq__"]}
{"id": "C86", "title": "Stories told while words and templates are added", "statement": "Threads that call dictionary.add_word, threads that call lexicon.add_template and threads that tell a story - get_random_template or get_random_nearest_template followed by substitute of the chosen template - run at the same time on one dictionary and one lexicon. The storytellers do not disturb the writers. A story of a key that is known before, or that one call only adds, is the story of the template that the sequential selection returns (or raises what it raises) from the lexicon of some moment of the run, and each of its variables prints what it prints with the dictionary of some moment not before that one, or the first variable that fails raises what it raises with the dictionary of some such moment. If an admissible template is there from the start, and every template offered under the key is a parsed one whose externals are given and whose words are known at the start with all their forms, the story never fails. If nothing that is added concerns the key or the words of the chosen template, the story is that of the sequential program. A story comes to an end after boundedly many moves of its thread, whatever the others do.", "quantifier": "all lexicons, dictionaries, words and templates being added, numbers of threads, stories with their keys, restrictions, externals and outcomes of the random generator, all interleavings of the single accesses to the shared dicts and lists", "why_tests_cant": "a test runs one interleaving that it cannot choose; the number of interleavings grows exponentially with the number of threads and accesses", "anchors": ["utg/lexicon.py:Lexicon.get_random_template", "utg/lexicon.py:Lexicon.get_random_nearest_template", "utg/lexicon.py:Lexicon.add_template", "utg/templates.py:Template.substitute", "utg/dictionary.py:Dictionary.add_word", "utg/dictionary.py:Dictionary.get_word"]}
{"id": "C87", "title": "Interrupted calls", "statement": "A call may be ended by an asynchronous exception (KeyboardInterrupt, a timeout signal) between any two of its accesses to its object. Loading words into a Dictionary: after any number of attempts interrupted anywhere, repeating the load gives exactly the dictionary and the outcome of an undisturbed load; meanwhile every entry is an old one or a form of a loaded word under its own text, nothing is forgotten and entries only get better. add_template: the template has been added, or no answer has changed, no other key has appeared and a repeated call completes the work; but a new key can be left without templates, and a template that was already appended is added twice by a repeated call. Template.parse: the object is finished or never gives a text, and if a variable had been read parsing again with the same object never helps. autofill_missed_forms: the first forms are filled as by the whole call, the others untouched; a repeated call fills all gaps with given texts, but not always the same ones. construct_integer and lazy properties: after any interrupted calls the next one answers as if nothing had happened.", "quantifier": "all words, dictionaries, lexicons, templates, texts, externals; every crash point; every number of interrupted attempts", "why_tests_cant": "an interruption can come between any two steps of calls of any length, and the attempts can be repeated any number of times; tests interrupt nothing", "anchors": ["utg/dictionary.py: Dictionary.__init__, add_word", "utg/lexicon.py: Lexicon.add_template", "utg/templates.py: Template.parse", "utg/words.py: Word.autofill_missed_forms", "utg/constructors.py: construct_integer", "utg/utils.py: lazy_property"]}
{"id": "C88", "title": "Loading words again repairs a dictionary after races and killed calls", "statement": "Let a dictionary have been worked on by any number of rounds of concurrent add_word calls, every one of which may have been killed at any point, and by interrupted loads. No answer ever gets worse than it was before the round. Adding all the words once more, one after the other in any order (exceptions caught), makes it as good as a dictionary to which nothing happened: exactly the same texts are known, each answered with a candidate that is level with the sequential answer. The words of the last round suffice if the dictionary was good before it; adding words again to a good dictionary changes no answer. The answer is exactly the sequential one if no two candidates for the text are level, if at most one of the killed concurrent calls writes the text, or if the killed load was sequential; templates then print the same text and report the same unknown words.", "quantifier": "all histories of rounds of add_word calls, interleavings, points at which calls are killed, words, orders of the second load, texts, templates and externals", "why_tests_cant": "tests can not enumerate interleavings and kill points", "anchors": ["utg/dictionary.py:Dictionary.add_word", "utg/dictionary.py:Dictionary.__init__", "utg/dictionary.py:Dictionary.get_word", "utg/templates.py:Template.substitute"]}
{"id": "C89", "title": "Words and names chosen by others are printed as they are, and their letters choose nothing", "statement": "Whenever a variable is printed, the text is one of the forms of the word its identifier stands for, unchanged or with its first letter made upper-case, and a template prints its literal parts with such texts between them: brackets, bars and percent signs in a word or a name are never read as markup. Replacing externals and dictionary words by others with the same grammar (part of speech, properties, number of forms) and other letters prints the same slot of the word with the same letter case, or fails with the same error, for every variable that is not a preposition; variables whose identifier is not the replaced name print exactly the same text. In particular a counter can be replaced by any number of the same class, so that 1, 2, 5, 21, 22 and 1000000 show every text that any integer can cause around it.", "quantifier": "all words and letters of words, externals, dictionaries, templates and texts, integers and histories of construct_integer", "why_tests_cant": "names and words are chosen by players at any later time, in any letters; tests see only the words of the tests, and only some numbers", "anchors": ["utg/templates.py:Substitution.get_text", "utg/templates.py:Template.substitute", "utg/words.py:WordForm.get_form", "utg/words.py:Word._form", "utg/transformators.py:transform", "utg/constructors.py:construct_integer"]}
{"id": "C90", "title": "Damaged or foreign stored data is refused with known errors, or means what it says", "statement": "For any value that json.loads can return: Properties, Word and Template.deserialize either raise one of TypeError, AttributeError, KeyError, ValueError, NotExternalValueError and WrongFormsNumberError, or return an object of which every part is determined by the named fields of the data (the last known entry of every group of properties, the coded part of speech, the stored forms, texts, identifiers and dependencies). Other fields never matter. If the forms are a list of texts (the template and the identifiers texts), what was accepted is a valid word (template). What serialize returned is read as itself, before and after json.dumps and json.loads. Refuted: that forms are always a list of texts - a text with the right number of characters is accepted as forms, so is an object with the right number of entries; a text is accepted as a list of dependencies or substitutions.", "quantifier": "all values of JSON (of any size and depth), all positions and kinds of damage", "why_tests_cant": "tests try a few broken files; the accepted set is infinite", "anchors": ["utg/words.py:Properties.deserialize", "utg/words.py:Word.deserialize", "utg/words.py:Word.__init__", "utg/templates.py:Substitution.deserialize", "utg/templates.py:Template.deserialize"]}
{"id": "C91", "title": "Any program of threads that use the whole library", "statement": "Take any number of threads, each making any number of calls one after the other (add_word, add_template, substitute, get_undictionaried_words, get_words, the four template selections, construct_integer), each next call chosen in any way from the outcomes so far, on one dictionary, one lexicon and the cache of integers, in any interleaving. Then an add_word call returns or raises as it would alone and its texts are known from then on for ever; the answer for a text is always a word form with that text of one of the words asked for; substitute returns its literals and for each variable what it prints at some moment of the program, or the error of a variable at some moment; get_undictionaried_words misses nothing that is still missing at the end and names nothing known at the start; get_words lists every word of the start and only words that were there; add_template never raises; a selection answers as after some of the add_template calls for its key, one after the other; a key known at the start, or asked for by one call only, has the templates of exactly the finished calls; construct_integer always answers as the sequential code. Every call returns or raises after a number of moves of its own thread that depends only on the call and on how much is stored at the end, whatever the other threads do. For the dictionary and for the lexicon the program is a run of one thread per call (C72, C73).", "quantifier": "all programs: numbers of threads, sequences of calls (every next call any function of the earlier outcomes), words, templates, keys and schedules", "why_tests_cant": "the calls, their order and their interleavings are unbounded", "anchors": ["utg/dictionary.py:Dictionary.add_word", "utg/dictionary.py:Dictionary.get_words", "utg/lexicon.py:Lexicon.add_template", "utg/lexicon.py:Lexicon.get_templates", "utg/lexicon.py:Lexicon.get_nearest_templates", "utg/templates.py:Template.substitute", "utg/templates.py:Template.get_undictionaried_words", "utg/constructors.py:construct_integer"]}
{"id": "C92", "title": "A stored template may have any text: the printed text is that of printf", "statement": "Template.deserialize takes the text of a template as it is stored, so a template may hold directives that parse never writes. For every text, substitute returns exactly what printf-style formatting prescribes for strings: characters other than % stand for themselves, %% for %, and each directive (flags, width without leading zero below 2^63, precision below 2^31, a size letter that is ignored, conversion s, r, a or c) takes the next text in order; the text (its repr, its ascii, itself, or itself if it is one character) is cut to the precision (not with c), filled with blanks up to the width, on the right if a minus is among the flags; every text is used. In every other case (numeric or unknown conversion, %(name), *, unfinished directive, too few or too many texts) substitute raises TypeError or ValueError, or what an occurrence raises. repr and ascii are the one quoted literal of the text in which printable (for ascii: printable ASCII) characters stand for themselves and the others are escaped, in single quotes unless the text has single and no double quotes.", "quantifier": "all format texts, numbers and contents of the substituted texts, templates, dictionaries and externals", "why_tests_cant": "texts and directives are unbounded in length, and the claim is an equivalence with a grammar", "anchors": ["utg/templates.py:Template.substitute", "utg/templates.py:Template.deserialize"]}
