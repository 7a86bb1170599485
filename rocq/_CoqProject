-Q theories Verif
theories/F32.v
theories/F32Facts.v
theories/Compute.v
theories/Graph.v
theories/GraphSpec.v
theories/GraphProofs.v
theories/CycleProofs.v
theories/GraphMore.v
theories/Library.v
theories/LibrarySpec.v
theories/LibraryProofs.v
theories/LoadProofs.v
theories/LibraryQueries.v
theories/P_Graph.v
theories/LibrarySample.v
theories/P_Library.v
theories/Filters.v
theories/FiltersSpec.v
theories/FiltersProofs.v
theories/P_Filters.v
theories/Sql.v
theories/Stores.v
theories/StoresSpec.v
theories/StoresProofs.v
theories/StoresMore.v
theories/StoresSample.v
theories/P_Stores.v
theories/F32Real.v
theories/Options.v
theories/OptionsSpec.v
theories/OptionsProofs.v
theories/P_Options.v
theories/Batch.v
theories/BatchSpec.v
theories/KnockProofs.v
theories/SelectProofs.v
theories/SizeProofs.v
theories/ShuffleProofs.v
theories/FinishProofs.v
theories/BatchSample.v
theories/BatchMore.v
theories/P_Batch.v
theories/Search.v
theories/SearchSpec.v
theories/LibFacts.v
theories/ResolveProofs.v
theories/CandidateProofs.v
theories/ShareProofs.v
theories/SearchProofs.v
theories/StartProofs.v
theories/TermProofs.v
theories/CompleteProofs.v
theories/WholeProofs.v
theories/SearchSample.v
theories/SearchMore.v
theories/P_Search.v
theories/Scorer.v
theories/F32More.v
theories/ScorerSpec.v
theories/ScorerProofs.v
theories/ScoreProofs.v
theories/PowerSample.v
theories/ScoreSample.v
theories/AverageProofs.v
theories/RewardProofs.v
theories/RewardSample.v
theories/P_Scorer.v
theories/Propagate.v
theories/PropagateSpec.v
theories/PropagateProofs.v
theories/PropagateMore.v
theories/PropagateSample.v
theories/PropagateHome.v
theories/P_Propagate.v
theories/UnitScorer.v
theories/Practice.v
theories/UnitSpec.v
theories/UnitProofs.v
theories/UnitEnds.v
theories/UnitSample.v
theories/UnitCoherent.v
theories/PracticeSpec.v
theories/PracticeProofs.v
theories/PracticeMore.v
theories/UnitPure.v
theories/PracticeSample.v
theories/UnitsMore.v
theories/AskSpec.v
theories/AskProofs.v
theories/AskSample.v
theories/P_Units.v
theories/RangeSpec.v
theories/RangeProofs.v
theories/RangeMore.v
theories/CallSpec.v
theories/CallProofs.v
theories/CallSample.v
theories/CallDelta.v
theories/P_Range.v
theories/Generators.v
theories/GenSpec.v
theories/StrFacts.v
theories/GenBase.v
theories/GenMusic.v
theories/GenTrans.v
theories/GenLiteracy.v
theories/GenKb.v
theories/GenSample.v
theories/P_Generators.v
theories/Facade.v
theories/FacadeProofs.v
theories/P_Facade.v
theories/FileSystem.v
theories/FileSpec.v
theories/FileProofs.v
theories/ConfigProofs.v
theories/SavedProofs.v
theories/BuildProofs.v
theories/FileSample.v
theories/P_Files.v
theories/KbBuilder.v
theories/KbSpec.v
theories/KbOpens.v
theories/KbDisk.v
theories/KbRead.v
theories/KbMain.v
theories/KbCards.v
theories/KbSample.v
theories/P_KbBuilder.v
theories/Dot.v
theories/DotSpec.v
theories/DotProofs.v
theories/DotSample.v
theories/P_Dot.v
theories/UnitAverageSpec.v
theories/UnitAverageProofs.v
theories/UnitAverageSample.v
theories/P_UnitAverage.v
theories/Walk.v
theories/WalkSpec.v
theories/WalkProofs.v
theories/WalkMore.v
theories/WalkBuild.v
theories/WalkTrane.v
theories/WalkSample.v
theories/P_Walk.v
theories/Benchmark.v
theories/CopyProofs.v
theories/BenchSpec.v
theories/BenchProofs.v
theories/BenchRun.v
theories/BenchSample.v
theories/P_Benchmark.v
theories/Json.v
theories/JsonSpec.v
theories/JsonProofs.v
theories/JsonCut.v
theories/Serde.v
theories/SerdeSpec.v
theories/SerdeProofs.v
theories/SerdeMore.v
theories/SerdeFiles.v
theories/SerdeSample.v
theories/P_Serde.v
theories/Locks.v
theories/LocksSpec.v
theories/LocksProofs.v
theories/LocksMore.v
theories/LocksSample.v
theories/P_Locks.v
theories/Threads.v
theories/ThreadsSpec.v
theories/ThreadsProofs.v
theories/ThreadsMore.v
theories/ThreadsSample.v
theories/P_Threads.v
theories/WeightSpec.v
theories/WeightProofs.v
theories/WeightSample.v
theories/P_Weight.v
theories/MemoryProofs.v
theories/CurveProofs.v
theories/MemoryMore.v
theories/MemorySample.v
theories/BetterSpec.v
theories/BetterProofs.v
theories/MemoryWitness.v
theories/P_Memory.v
theories/P_Better.v
theories/ExactSpec.v
theories/MemoryExact.v
theories/CurveExact.v
theories/AverageExact.v
theories/ScoreExact.v
theories/StepExact.v
theories/P_Exact.v
theories/RewardExactSpec.v
theories/RewardExact.v
theories/RewardShown.v
theories/P_RewardExact.v
theories/Session.v
theories/SessionSpec.v
theories/SessionProofs.v
theories/SessionMore.v
theories/SessionSafe.v
theories/SessionLive.v
theories/SessionKept.v
theories/SessionSample.v
theories/P_Session.v
theories/MixSpec.v
theories/MixProofs.v
theories/MixShares.v
theories/MixCounts.v
theories/P_Mix.v
theories/Machine.v
theories/MachineSpec.v
theories/MachineProofs.v
theories/P_Machine.v
theories/ImportProofs.v
theories/ImportSample.v
theories/P_Import.v
theories/ProgressSpec.v
theories/TidyProofs.v
theories/ProgressProofs.v
theories/ProgressSample.v
theories/P_Progress.v
theories/PassSpec.v
theories/PassProofs.v
theories/PassSample.v
theories/P_Pass.v
theories/Edit.v
theories/EditSpec.v
theories/EditProofs.v
theories/EditSample.v
theories/P_Edit.v
theories/SlopeSpec.v
theories/SlopeProofs.v
theories/SlopeSample.v
theories/P_Slope.v
theories/LikeSpec.v
theories/LikeProofs.v
theories/P_Like.v
theories/ChanceSpec.v
theories/ChanceProofs.v
theories/ChanceSample.v
theories/P_Chance.v
theories/PrefixSpec.v
theories/PrefixProofs.v
theories/P_Prefix.v
theories/WithinSpec.v
theories/WithinProofs.v
theories/WithinSample.v
theories/WithinLife.v
theories/WithinLifeSample.v
theories/P_Within.v
theories/ComesUpSpec.v
theories/ComesUpProofs.v
theories/ComesUpSample.v
theories/P_ComesUp.v
theories/Migrate.v
theories/MigrateSpec.v
theories/MigrateProofs.v
theories/P_Migrate.v
theories/Manifests.v
theories/ManifestSpec.v
theories/ManifestProofs.v
theories/ManifestMore.v
theories/ManifestSample.v
theories/P_Manifests.v
theories/TornSpec.v
theories/TornProofs.v
theories/TornSample.v
theories/P_Torn.v
theories/DictationSpec.v
theories/DictationProofs.v
theories/DictationSample.v
theories/P_Dictation.v
