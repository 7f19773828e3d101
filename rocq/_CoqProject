-Q theories Verif
theories/Outcome.v
theories/Words.v
theories/WordsFacts.v
theories/Ints.v
theories/Types.v
theories/OptBytes.v
theories/TypesSpec.v
theories/IntsFacts.v
theories/EnumFacts.v
theories/TypesFacts.v
theories/OptBytesFacts.v
theories/FrameFacts.v
theories/CustomTraits.v
theories/TraitFacts.v
theories/FindingsFacts.v
theories/ReprLemmas.v
theories/PropertiesRepr.v
theories/Lifetime.v
theories/LifetimeSpec.v
theories/LifetimeFacts.v
theories/History.v
theories/HistorySpec.v
theories/HistoryFacts.v
theories/Log.v
theories/LogFacts.v
theories/Classes.v
theories/ClassesFacts.v
theories/LifetimeLemmas.v
theories/PropertiesLifetime.v
theories/Api.v
theories/ApiSpec.v
theories/ApiFacts.v
theories/ApiLaws.v
theories/ConvFacts.v
theories/ApiMore.v
theories/PropertiesApi.v
theories/RefOpt.v
theories/RefOptSpec.v
theories/RefOptFacts.v
theories/Observe.v
theories/ObserveSpec.v
theories/ObserveFacts.v
theories/Iter.v
theories/IterFacts.v
theories/Lookup.v
theories/LookupFacts.v
theories/AsOption.v
theories/AsOptionFacts.v
theories/PropertiesObserve.v
theories/Select.v
theories/SelectSpec.v
theories/SelectFacts.v
theories/PropertiesSelect.v
theories/Tuple.v
theories/TupleSpec.v
theories/TupleFacts.v
theories/ZipFacts.v
theories/ZipLaws.v
theories/PropertiesTuple.v
theories/EnumScan.v
theories/EnumScanFacts.v
theories/PropertiesScan.v
theories/Constraints.v
theories/ConstraintsSpec.v
theories/ConstraintsFacts.v
theories/Convert.v
theories/ConvertFacts.v
theories/PropertiesConstraints.v
theories/ByteClass.v
theories/ByteClassFacts.v
theories/ByteProg.v
theories/ByteProgSpec.v
theories/ByteProgFacts.v
theories/ByteCopyFacts.v
theories/BytesLemmas.v
theories/PropertiesBytes.v
theories/TestsLifetime.v
theories/TestsTraits.v
theories/TestsMeta.v
theories/TestsOption.v
theories/Dispatch.v
theories/DispatchSpec.v
theories/DispatchFacts.v
theories/PropertiesDispatch.v
theories/ConstructAt.v
theories/ConstructAtFacts.v
theories/PropertiesConstructAt.v
theories/Results.v
theories/ResultsSpec.v
theories/ResultsFacts.v
theories/PropertiesResults.v
theories/TestsResults.v
theories/Natvis.v
theories/NatvisSpec.v
theories/NatvisFacts.v
theories/PropertiesNatvis.v
theories/Guide.v
theories/GuideSpec.v
theories/GuideFacts.v
theories/PropertiesGuide.v
theories/Init.v
theories/InitSpec.v
theories/InitFacts.v
theories/PropertiesInit.v
theories/Typestate.v
theories/TypestateSpec.v
theories/TypestateFacts.v
theories/PropertiesTypestate.v
theories/ConstEval.v
theories/ConstEvalSpec.v
theories/ConstEvalFacts.v
theories/PropertiesConstEval.v
theories/PyText.v
theories/Codegen.v
theories/CodegenSample.v
theories/CodegenSpec.v
theories/CodegenFacts.v
theories/Asm.v
theories/AsmSpec.v
theories/AsmFacts.v
theories/AsmListings.v
theories/PropertiesCodegen.v
theories/CodegenRead.v
theories/CodegenReadFacts.v
theories/PropertiesCodegenRead.v
theories/Examples.v
theories/ExamplesSpec.v
theories/ExamplesFacts.v
theories/PropertiesExamples.v
theories/ExamplesSource.v
theories/TestsExamples.v
theories/Disasm.v
theories/DisasmSpec.v
theories/DisasmFacts.v
theories/PropertiesDisasm.v
theories/StdOptional.v
theories/StdSpec.v
theories/StdFacts.v
theories/Braces.v
theories/StdConstraints.v
theories/StdConstraintsFacts.v
theories/PropertiesStd.v
theories/Compare.v
theories/CompareSpec.v
theories/CompareFacts.v
theories/PropertiesCompare.v
theories/Preproc.v
theories/Config.v
theories/ConfigSpec.v
theories/ConfigFacts.v
theories/ConfigSamples.v
theories/Checks.v
theories/ChecksFacts.v
theories/ConfigLemmas.v
theories/PropertiesConfig.v
theories/Hash.v
theories/HashSpec.v
theories/HashFacts.v
theories/PropertiesHash.v
theories/Invoke.v
theories/InvokeSpec.v
theories/InvokeFacts.v
theories/PropertiesInvoke.v
theories/IterProg.v
theories/IterProgSpec.v
theories/IterProgFacts.v
theories/PropertiesRange.v
theories/Deduce.v
theories/DeduceSpec.v
theories/DeduceFacts.v
theories/PropertiesDeduce.v
theories/DocLang.v
theories/DocSource.v
theories/DocSnippets.v
theories/DocSpec.v
theories/DocFacts.v
theories/DocMembers.v
theories/DocNest.v
theories/DocProg.v
theories/DocProgFacts.v
theories/DocText.v
theories/DocClasses.v
theories/DocClassFacts.v
theories/PropertiesDocs.v
theories/Alias.v
theories/AliasSpec.v
theories/AliasFacts.v
theories/PropertiesAlias.v
theories/Reenter.v
theories/ReenterSpec.v
theories/ReenterFacts.v
theories/PropertiesReenter.v
theories/Layout.v
theories/LayoutSpec.v
theories/LayoutFacts.v
theories/PropertiesLayout.v
theories/CMakeSource.v
theories/CMakeLang.v
theories/CMakeFiles.v
theories/CMakeRules.v
theories/CMakeSym.v
theories/CMakeSpec.v
theories/CMakeFacts.v
theories/CMakeRun.v
theories/CMakeUse.v
theories/CMakeLemmas.v
theories/PropertiesCMake.v
theories/DocAccess.v
theories/DocAccessSpec.v
theories/DocAccessFacts.v
theories/DocTuple.v
theories/DocTupleSpec.v
theories/DocTupleFacts.v
theories/PropertiesAccess.v
theories/StringSpec.v
theories/StringFacts.v
theories/PropertiesString.v
theories/Layers.v
theories/LayersSpec.v
theories/LayersFacts.v
theories/ReadmeFacts.v
theories/PropertiesLayers.v
theories/MixIter.v
theories/MixIterSpec.v
theories/MixIterFacts.v
theories/PropertiesMix.v
theories/CISource.v
theories/CILang.v
theories/CMakeExternal.v
theories/CISpec.v
theories/CIDoc.v
theories/CIFacts.v
theories/CIDocFacts.v
theories/CIWordsFacts.v
theories/PropertiesCI.v
theories/TypestateFlow.v
theories/TypestateFlowSpec.v
theories/TypestateFlowFacts.v
theories/PropertiesTypestateFlow.v
theories/Noexcept.v
theories/NoexceptSpec.v
theories/NoexceptFacts.v
theories/NoexceptClasses.v
theories/PropertiesNoexcept.v
theories/Borrow.v
theories/BorrowSpec.v
theories/BorrowFacts.v
theories/PropertiesBorrow.v
theories/PureCalls.v
theories/PureCallsSpec.v
theories/PureCallsFacts.v
theories/PropertiesPure.v
theories/Threads.v
theories/ThreadsSpec.v
theories/ThreadsFacts.v
theories/PropertiesThreads.v
theories/RefBind.v
theories/RefBindSpec.v
theories/RefBindFacts.v
theories/PropertiesRefBind.v
theories/CMakeWordsFacts.v
theories/PropertiesCMakeWords.v
theories/Bench.v
theories/BenchSpec.v
theories/BenchFacts.v
theories/BenchBuildFacts.v
theories/PropertiesBench.v
theories/RefFrom.v
theories/RefFromSpec.v
theories/RefFromFacts.v
theories/PropertiesRefFrom.v
theories/StdFwd.v
theories/StdFwdSpec.v
theories/StdFwdFacts.v
theories/StdFwdConfigFacts.v
theories/PropertiesStdFwd.v
theories/CIUsesFacts.v
theories/PropertiesCIUses.v
theories/StepFilter.v
theories/StepFilterSpec.v
theories/StepFilterFacts.v
theories/PropertiesStepFilter.v
theories/NatvisRaw.v
theories/NatvisRawSpec.v
theories/NatvisRawFacts.v
theories/PropertiesNatvisRaw.v
theories/NumeralSpec.v
theories/NumeralFacts.v
theories/PropertiesNumeral.v
theories/StdNames.v
theories/StdNamesSpec.v
theories/StdNamesFacts.v
theories/PropertiesStdNames.v
theories/Choice.v
theories/ChoiceSpec.v
theories/ChoiceFacts.v
theories/PropertiesChoice.v
theories/AsmMeaning.v
theories/PropertiesAsm.v
theories/ChoiceDeep.v
theories/ChoiceDeepSpec.v
theories/ChoiceDeepFacts.v
theories/PropertiesChoiceDeep.v
theories/DeadUse.v
theories/PropertiesDeadUse.v
theories/UndefSeen.v
theories/PropertiesUndef.v
theories/DeadAccess.v
theories/PropertiesDeadAccess.v
