# Formal model of the-tale/utg in Rocq (Coq 8.16.1)

The plan was committed before the proofs (see the history of this file); this is its current version.

## 1. Trusted base

* **Coq's kernel** (8.16.1), including its `vm_compute` reduction machine, which several proofs use for finite
  computations (slot tables, migration tables, float masks). No kernel check is switched off, no `Admitted`, no
  functors/module types, no plugins.
* **Axioms: none.** `Print Assumptions` answers "Closed under the global context" for every theorem listed in
  MANIFEST.json (rerun: `sh tools/assumptions.sh` after a build). In particular classical logic, functional
  extensionality, primitive floats/ints and `SpecFloat` axioms are not used (binary64 is computed with
  `Coq.Floats.SpecFloat`, which is plain Gallina).
* **The model is the code.** The definitions of the model were written from the text of /repo, function by function,
  each with the lines it models. `Conformance.v` replays the input/output examples of /repo/utg/tests
  (generated by tools/gen_conformance.py from the test sources plus tools/conformance_hand.txt) as computations in the
  model: they are *tests of the model*, not proofs of properties.
* **Generated tables**: Relations.v (from utg/relations.py) and MigrationTables.v (from utg/migrations) are produced
  by tools/gen_relations.py and tools/gen_migrations.py by reading the text of the Python files.
* **The external library `rels`** (not in /repo): a record equals another one iff relation and value agree,
  `Relation(v)` finds the record with value v or raises `NotExternalValueError`, `.records` is the declaration order,
  `.index_*` are dicts. **`random.choice`** is an oracle index over which the theorems quantify.

## 2. What is modelled, what is not

| code | model | not modelled |
|---|---|---|
| utg/relations.py | Relations.v (all relations, records, verbose ids) | `text` columns used nowhere |
| utg/restrictions.py | Restrictions.v | - |
| utg/logic.py | Logic.v (keys, restrictions, `_get_raw_cache`, `get_caches`, `get_nearest_key`, similarity in binary64) | `pretty_format_current_keys_cache`-style printers for developers |
| utg/data.py | Data.v | - |
| utg/words.py | Words.v (everything) | pprint helpers |
| utg/transformators.py | Transformators.v (everything) | - |
| utg/constructors.py | Constructors.v (incl. the cache, as a state machine with threads) | - |
| utg/dictionary.py, lexicon.py, templates.py | Dictionary.v, Lexicon.v, Templates.v (everything) | - |
| concurrent `add_word`, `add_template` | Concurrent.v (threads, one step per access to a shared dict or list) | free-threaded builds without atomic dict/list operations |
| one `Template` object used by several threads | TemplateThreads.v (one step per access to the list of substitutions or to the text) | a `Template` object that is being parsed while another thread substitutes it from the lexicon (parsed templates: Server.v) |
| a server: one dictionary, one lexicon, threads of add_word, add_template and of selection followed by substitution | Server.v (steps of Concurrent.v, Readers.v, LexReaders.v); every kind of call in one program, in any order: Program.v | - |
| calls ended by an asynchronous exception (`Dictionary(...)`, `add_word`, `add_template`, `parse`, `autofill_missed_forms`, `construct_integer`, lazy properties) | Interrupt.v (the first n steps of the step functions above, run alone; the object is left as it is) | an interruption inside of a single dict or list operation of the interpreter (calls killed while other threads run are schedules that never run a thread again: C69, C70, C83, C88) |
| deserialize methods on arbitrary data | Json.v (any value that json.loads can return, or a dict with int keys; `WORD_TYPE(x)` of an unhashable x is a TypeError as in a dict lookup) | what the rest of the library does with a word whose forms are no list of texts, except `Word._form` |
| utg/utils.py (lazy_property) | Lazy.v (sequential and interleaving machine); Heap.v (as attributes of objects) | - |
| utg/exceptions.py | PyBase.v (`exn`), Exceptions.v (classes, messages, construction) | positional-argument texts of built-in errors |
| utg/migrations | Migrations.v, MigrationTables.v (m_0001, m_0002, m_0004, m_0005, m_0007, m_0008, m_0009) | `migrate` of m_0003 and m_0006: the modules can not be imported (C52), their functions are unreachable |
| object identity, sharing, in-place mutation | Heap.v (lists, words, word forms, dictionaries, serialized data, the integer cache) | `Properties` objects have no identity (the library never mutates one after construction) |

Simplifications (each also stated at the definition):

* Python exceptions are values, `result A := Ok a | Err e`. Procedures that mutate before they can raise
  (`Dictionary.add_word`, `Template.parse`) return the new state together with the result, so the state left behind by
  a raising call is visible. The arguments of an exception are kept where callers can observe them in the model's
  terms (C68 treats messages separately).
* `str` is `list N` (code points). `upper`, `lower`, `isupper`, `isspace` are a record argument `U : unicode`:
  theorems hold for ALL tables (some need the stated laws `unicode_ok`); the table `ru_unicode` serves examples.
* `dict` is an association list in insertion order (CPython >= 3.7); dict equality is lookup equality.
* `int()` of a text is modelled as in CPython: surrounding blanks, an optional sign, decimal digits of any script (the
  tables of Unicode 14), single underscores between digits; CPython's limit on the number of digits (4300) is ignored.
* `%` on a tuple of texts (Template.substitute) is modelled in full as in CPython 3.11 (Percent.v; memory is unlimited); the
  `%` of the exception messages knows the directives that occur there (`%%`, `%(name)s`, `%(name)r`).
* `dependency in externals` is asked for names only: a Properties object never equals a str key.
* the `externals` argument of `parse` may be any container of names; it is modelled as the dict, and C63_parse shows
  that only the names matter.
* in Heap.v a reference to a non-existing object gives KeyError; no theorem depends on this (they speak about existing
  objects).

## 3. Files (rocq/theories)

* *Model (definitions only)*: PyBase, PyFloat, Printable, Percent, Relations, Restrictions, Logic, Data, Words, Transformators,
  Constructors, Dictionary, Lexicon, Templates, Exceptions, Lazy, MigrationTables, Migrations, Heap, Concurrent, Readers, LexReaders, Sessions, TemplateThreads, LexShared, Compare, Server, Interrupt, Json, Program.
* *Specification vocabulary, independent of the model's helpers*: SpecProps (what a Properties object holds), SpecSlots
  (slots, agreement of combinations, similarity as rationals/masks), SpecDictionary (registered forms, preference),
  SpecLists (subsequence, sublists with multiplicity), SpecTemplates (cutting, variables, identifiers), SpecAgreement
  (the grammar tables), SpecIntegers (decimal notation), SpecSubstitution (layers of properties, printed text),
  SpecLocality, SpecReadme, SpecCounting, SpecIdentifiers, SpecPrepositions, SpecPlaces, SpecPhrases, SpecChosen, SpecJson, SpecPercent, SpecProgram, SpecReload, SpecRecovery, SpecSessions, SpecStored, SpecTemplateThreads, SpecServer, SpecInterrupt, SpecRelevance, SpecMigrations, SpecHeap (histories, allowed steps, views of objects as values), SpecConcurrent (schedules, outcomes), SpecReaders, SpecLexReaders (readers, moments of a run).
  `is_dictionary` (SpecSubstitution) holds of every dictionary that add_word calls can make, at every moment of a concurrent
  run too, so the theorems about substitution (C34-C42, C66, C67, C71, C74) hold there as well.
* *Lemmas*: PyBaseFacts, PropsFacts, IntFacts, StrFacts, SerFacts, SynFacts, FloatFacts, SlotFacts, NearestFacts,
  LookupFacts, WordFacts, DictFacts, TemplateFacts, AgreementFacts, SubstFacts, MigrationFacts, HeapFacts, ReachFacts,
  KeepFacts, ConcurrentFacts, LexThreadFacts, ReaderFacts, LexReaderFacts, ProgramFacts.
* *Theorems*: `Prop*.v`. A theorem of property Cnn is named `Cnn_...`; beside it an `Example Cnn_case...` shows a
  concrete non-trivial instance of its hypotheses. Theorems named `..._refuted` or marked FINDING show by a proof that
  a natural expectation is false for the code as it is.
* Conformance.v: the project's own tests, replayed in the model.

## 4. Property by property

| property | how it is modelled and proved | file |
|---|---|---|
| C01-C04, C06 | Properties = dict group -> record built by folding the arguments; last-wins folds; decimal keys of JSON; verbose ids pairwise distinct by computation, lifted to all sets by induction | PropProperties |
| C05 | equality/hash keys of WordForm; positive theorem without form_properties, refutation with them | PropProperties |
| C07-C09 | for ARBITRARY schema, restrictions and restricted parts: declarative `slot` predicate, induction over the schema | PropSlots |
| C10-C12 | invariants of the phases of `_get_raw_cache` for arbitrary tables, instantiated with the shipped ones | PropSlots, PropTables |
| C13, C14 | fold invariant (first arg max) in exact binary64; integer error analysis of the binary64 operations (FloatRounding.v, no real numbers, no axioms): for keys of up to 1000 elements the float order follows the exact total in hundredths, hence the documented priority up to 20 elements (refuted at 21); exact ties from 5 elements on are refuted to keep the list order | PropSlots |
| C15-C19, C54, C55 | directly from the constructor / lookup / autofill / vowel functions, for all words | PropWords |
| C20-C23 | invariant over all histories of add_word calls (raising ones included): registry = leftmost minimum of the registered candidates | PropDictionary |
| C24-C26 | refinement of the lexicon to the history list; all outcomes of the random generator | PropLexicon |
| C27-C31, C33, C39 | the text is related to its unique leftmost decomposition; search-and-replace of the code shown to hit the right place | PropSyntax |
| C32 | round trip of parsed templates, substitution on the copy | PropSerialization |
| C34-C38, C42 | composition of lookup totality, dictionary invariant and agreement, stated with layers of properties | PropSubstitution |
| C40, C41, C43, C44 | all properties and words against independent grammar tables | PropAgreement, PropSubstitution |
| C45-C47 | arithmetic over Z; decimal round trip; cache as state machine over histories and interleavings of any number of threads | PropIntegers |
| C48, C49 | lazy property as sequential machine and as interleaving of any number of threads | PropLazy |
| C50-C53, C56, C57 | generic migration lemma for arbitrary tables; the shipped tables by computation; all data | PropMigrations |
| C58-C61 | a heap of objects; reachable heaps of all histories; simulation by values (C58), exact effect of list sharing (C59), stability of cached attributes (C60), identity of cached integers (C61) | PropHeap |
| C62 | text of Properties and its parser, its UTF-8 bytes | Text, PropText |
| C63-C65 | two-environment (non-interference) statements; concatenation of template texts | PropLocality |
| C66, C67 | the promises of README.rst end to end: parse, recognise, agree, print | PropReadme |
| C68 | %-formatting machine and class table of utg/exceptions.py | PropExceptions |
| C69 | any number of threads in add_word, one step per access; invariant with the list of forms each thread has dealt with | PropConcurrent |
| C70 | any number of threads in add_template over list objects; invariant with a log of appended calls per list and an owner key per list | PropLexiconThreads |
| C71 | two runs of get_text on property sets that agree on the relevant groups (SpecRelevance) do the same at every step | PropRelevance |
| C72 | readers as threads beside the add_word threads; the dictionary only grows; prefix invariants of each reader's loop | PropReaders |
| C73 | readers of a lexicon as threads that iterate a live list; invariant: collected = prefix of the list; the linearisation point is the last move | PropLexReaders |
| C74 | the tables of C40-C42 composed with parsing (C66) and with the classes of integers (C45); a separate table by the decimal digits of n; slots exist for every combination | PropCounting |
| C75 | the README's table as a separate specification, compared with the records; composition with C30 | PropIdentifiers |
| C76 | the own properties of a word are contained in those of its forms, so the merged properties of a bare variable have the same values | PropVariables |
| C77 | induction over the externals that the variable names: the last one that asks for a form decides; C71 for the properties that do not matter | SpecPrepositions, PropPrepositions |
| C78 | the place table (SpecPlaces) is compared, combination by combination, with the slots of the schemas and their restrictions; then the lookup theorem of C07-C09 | SpecPlaces, PropPlaces |
| C79 | C65 for the concatenation, C78 for the places, C74, C76 and C67 for the single variables; the phrases are compositions of these | SpecPhrases, PropPhrases |
| C80 | relational (congruence) proof over get_text and transform; the first best candidate is invariant under alike words; C16, C20, C21, C32 for the rest | SpecReload, PropReload |
| C81 | Sessions.v: histories over template objects by identity, a lexicon of references and a dictionary; induction over the history, C24-C26 and C34 for the parts | Sessions, SpecSessions, PropSessions |
| C82 | explicit table of numbers (SpecStored) against the generated relations; C82_properties_written/read, C82_word_written/read, C82_template_written/read, C82_codes, C82_type_codes | SpecStored, PropStored |
| C83 | one step per access to the list of substitutions or the text; invariant: every state of the object is a first part of the finished template, every reader's loop has dealt with a prefix of it; measure for progress | TemplateThreads, SpecTemplateThreads, PropTemplateThreads |
| C84 | sets as numbered objects the caller can change, the lexicon holds references; induction on the history relates it to the lexicon of values (lex_after of C24) built from the current contents | LexShared, SpecLexShared, PropLexShared |
| C85 | a universe of objects, ==/!=/hash as Python evaluates them; case analysis over the classes | Compare, PropCompare |
| C86 | the threads of C69, C70, C72 and C73 in one program; projections onto the dictionary and onto the lexicon are simulations, so their theorems carry over; induction on the schedule for the story's own thread | Server, SpecServer, ServerFacts, PropServer |
| C87 | the first n steps of the step functions of C49, C46, C69, C70 and C83, run alone; an invariant relates every crash point to the sequential functions (registered forms, list objects, the loop of parse); idempotence of registration from the strict order `preferred`; counterexamples for the parts that are not idempotent | Interrupt, InterruptFacts, SpecInterrupt, PropInterrupt |
| C88 | killed threads are threads that a schedule never runs again, interrupted loads are Interrupt.v; invariants of the interleaving machine (origin of entries, entries do not get worse, what the only writer of a text has dealt with); registering as a fold of the better of two candidates | SpecRecovery, RecoveryFacts, PropRecovery |
| C89 | every step of get_text before the final lookup is shown to read types, properties and the number of forms only (transformators: a case analysis of the table, prepositions excepted); the form is then a slot number and a letter case; the six classes of numbers of C45 have six representatives | SpecChosen, PropChosen |
| C90 | Json.v models the deserialize methods on an inductive type of JSON values, each subscript, iteration, len, dict lookup and int() with its exception; exact description of the accepted values; reduction to the typed readers (C03, C16, C82) | Json, SpecJson, PropJson |
| C91 | Program.v puts the step functions of Concurrent.v, Readers.v, LexReaders.v and Constructors.v into threads that make one call after the other; flattening to one thread per call, simulation of each part, then C69, C70, C72, C73, C47 | Program, SpecProgram, ProgramFacts, PropProgram |
| C92 | Percent.v models CPython's directive parser character by character (compared with CPython 3.11 on 2 million random formats); equivalence with the grammar of SpecPercent.v by induction on the length of the format and on the parts of a directive; literals by induction on the text | Printable, Percent, SpecPercent, PropPercent |

All properties can be expressed in the model; none is "not applicable", and no theorem has the suffix `_partial`.

## 5. Findings (each is a theorem, unless marked otherwise)

* `%` inside a variable is doubled, so names with `%` are never found (C29); re-using a Template object for `parse`
  accumulates substitutions, `substitute` then raises TypeError (C33); a blank identifier raises IndexError instead of
  a library error (C30); `slug.strip()` is discarded, so "мн, им" is rejected (C31); names with capitals are
  unreachable (C39).
* equal WordForms can have different hashes when built with form_properties (C05); `str(Properties)` is a TypeError in
  Python 3: `__str__` returns bytes (C62_str_refuted).
* integer agreement overrides a word's own fixed NUMBER (C38).
* `create_test_word` ignores the required properties of the type (C54).
* lazy attributes become stale after mutation; a concurrent delete makes a reader fail with AttributeError (C48, C49,
  C60); Word, serialize and deserialize share one forms list (C59); cached integers are shared mutable objects (C61).
* `add_word` is not atomic (C23); an added word can be missing from `get_words` (C20_added_word_missing); the order of
  adding twins matters (C22).
* keys of equal exact similarity are not always taken in list order from 5 elements on, because of rounding (C14); a banned combination such as the imperative of a banned person is
  answered by the infinitive (C12); with other tables the fallback need not be a most similar slot (C12_any_tables_refuted).
* m_0001 with the current tables fills all adjective slots with one old form (C56); m_0007 puts the short plural form
  into the comparative slot (C57); its OLD participle table literal has 144 duplicate keys; m_0003 and m_0006 can not
  be imported; m_0001's output is too short for m_0007 (C52).
* the README says that `[красивого|hero]` takes hero's nominative: false if hero's form specifies no CASE, e.g.
  WordForm(word) - the recognised case stays (C67_unspecified_case_stays).
* UtgError, WordsError, LexiconError, TransformatorsError can not be instantiated; no error of the library can be
  copied or pickled (C68).
* concurrent `add_word` can leave the less preferred form registered (C69_race_refuted); two concurrent first
  `add_template` calls for a key can lose a template that readers have already been given, and a reader can meet a known
  key without templates (C70_lost_template_refuted, C70_empty_key_refuted).
* a part of speech written as a property (`[печь|гл]`) is accepted and ignored: it does not choose between homonyms
  (C71_part_of_speech_ignored).
* `get_words` beside a concurrent `add_word` can fail with RuntimeError: dictionary changed size during iteration
  (C72_get_words_error_refuted). With two concurrent first `add_template` calls for a key a reader can get an answer that
  the lexicon gives at no moment (C73_race_refuted).
- Two `parse` calls on one Template at once, or a `parse` of a second text into a Template that is in use, can give another thread
  one text with the other's words (C83_two_parses_torn_refuted, C83_parse_again_torn_refuted); `get_undictionaried_words` during a
  parse can be empty although a variable has no word (C83_undictionaried_refuted).
- `form == None`, `None == form`, `form == word`, `template == None` raise AttributeError; `word == form` is False (C85_symmetry_refuted); templates and substitutions can not be put into sets (C85_unhashable).
- A set of restrictions changed after `add_template` changes what the lexicon answers, without a call on it (C84_retroactive_refuted).
- Beside 22, 33, 104, ... a verb is printed in the singular (C74_composite_verb_is_singular) and an adjective in the genitive singular
  (C74_attribute with d_composite), instead of "22 красивых хомячка побежали".
- The form_properties of an external do not matter when the external is printed (C76_form_properties_ignored); only prepositions see them.
- A preposition looks at the own form of the external, not at the form printed beside it: with hero = WordForm(лев), `[в|hero] [hero|пр]` prints "в льве", and writing `[в|hero|пр]` changes nothing (C77_written_case_ignored, C77_case).

## 6. Testing the theorems with wrong programs

`seeded/make_mutants.py` lists realistic wrong edits of model definitions (with the properties each breaks);
`tools/mutate.py` applies each to a scratch copy, rebuilds all dependent files with failing proofs skipped and
recorded, and writes one line per mutant to `seeded/LOG.jsonl` (`expected_missed` = claims that became false but whose
theorems still proved). Theorems tightened as a consequence are named in `theorems_tightened`.
