-Q theories Verif
theories/PyBase.v
theories/Printable.v
theories/Percent.v
theories/PyFloat.v
theories/Relations.v
theories/Restrictions.v
theories/Logic.v
theories/Data.v
theories/Words.v
theories/Transformators.v
theories/Constructors.v
theories/Dictionary.v
theories/Lexicon.v
theories/Templates.v
theories/Text.v
theories/Conformance.v
theories/Lazy.v
theories/MigrationTables.v
theories/Migrations.v
theories/PyBaseFacts.v
theories/SpecProps.v
theories/PropsFacts.v
theories/IntFacts.v
theories/StrFacts.v
theories/SerFacts.v
theories/SynFacts.v
theories/PropProperties.v
theories/FloatFacts.v
theories/SpecSlots.v
theories/SlotFacts.v
theories/FloatRounding.v
theories/NearestFacts.v
theories/LookupFacts.v
theories/SlotTables.v
theories/CaseTools.v
theories/PropSlots.v
theories/WordFacts.v
theories/PropWords.v
theories/SpecDictionary.v
theories/DictFacts.v
theories/PropDictionary.v
theories/SpecLists.v
theories/PropLexicon.v
theories/SpecTemplates.v
theories/TemplateFacts.v
theories/PropSyntax.v
theories/SpecAgreement.v
theories/AgreementFacts.v
theories/PropAgreement.v
theories/SpecIntegers.v
theories/PropIntegers.v
theories/SpecSubstitution.v
theories/SubstFacts.v
theories/PropSubstitution.v
theories/SpecLocality.v
theories/PropLocality.v
theories/SpecReadme.v
theories/PropReadme.v
theories/Exceptions.v
theories/PropExceptions.v
theories/PropSerialization.v
theories/PropLazy.v
theories/SpecMigrations.v
theories/MigrationFacts.v
theories/PropMigrations.v
theories/Heap.v
theories/SpecHeap.v
theories/HeapFacts.v
theories/ReachFacts.v
theories/KeepFacts.v
theories/PropHeap.v
theories/PropText.v
theories/Concurrent.v
theories/SpecConcurrent.v
theories/ConcurrentFacts.v
theories/PropConcurrent.v
theories/LexThreadFacts.v
theories/PropLexiconThreads.v
theories/SpecRelevance.v
theories/PropRelevance.v
theories/Readers.v
theories/SpecReaders.v
theories/ReaderFacts.v
theories/PropReaders.v
theories/LexReaders.v
theories/SpecLexReaders.v
theories/LexReaderFacts.v
theories/PropLexReaders.v
theories/SpecCounting.v
theories/PropCounting.v
theories/SpecIdentifiers.v
theories/PropIdentifiers.v
theories/PropVariables.v
theories/SpecPrepositions.v
theories/PropPrepositions.v
theories/SpecPlaces.v
theories/PropPlaces.v
theories/SpecPhrases.v
theories/PropPhrases.v
theories/SpecReload.v
theories/PropReload.v
theories/Sessions.v
theories/SpecSessions.v
theories/PropSessions.v
theories/SpecStored.v
theories/PropStored.v
theories/TemplateThreads.v
theories/SpecTemplateThreads.v
theories/PropTemplateThreads.v
theories/PropTables.v
theories/PropCases.v
theories/LexShared.v
theories/SpecLexShared.v
theories/PropLexShared.v
theories/Compare.v
theories/PropCompare.v
theories/Server.v
theories/SpecServer.v
theories/ServerFacts.v
theories/PropServer.v
theories/Interrupt.v
theories/InterruptFacts.v
theories/SpecInterrupt.v
theories/PropInterrupt.v
theories/SpecRecovery.v
theories/RecoveryFacts.v
theories/PropRecovery.v
theories/SpecChosen.v
theories/PropChosen.v
theories/Json.v
theories/SpecJson.v
theories/PropJson.v
theories/Program.v
theories/SpecProgram.v
theories/ProgramFacts.v
theories/PropProgram.v
theories/SpecPercent.v
theories/PropPercent.v
theories/PropPercentTemplates.v
