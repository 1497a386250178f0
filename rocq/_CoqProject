-Q theories Verif
theories/BCrashProofs.v
theories/BGCrashProofs.v
theories/BLedgerProofs.v
theories/BMapProofs.v
theories/BResourceModel.v
theories/BResourceProofs.v
theories/BTreeDatasetModel.v
theories/BTreeDatasetProofs.v
theories/BTreeGraphModel.v
theories/BTreeGraphProofs.v
theories/Base.v
theories/BaseProofs.v
theories/BinModel.v
theories/BinProofs.v
theories/BinSpec.v
theories/BlankIdModel.v
theories/BlankIdProofs.v
theories/BlankIdSpec.v
theories/ConsumeModel.v
theories/ConsumeProofs.v
theories/ConsumeSpec.v
theories/ContainerSpec.v
theories/CopyModel.v
theories/CopyProofs.v
theories/CopySpec.v
theories/CountModel.v
theories/CountProofs.v
theories/CountSpec.v
theories/CrashAgree.v
theories/CrashCallsProofs.v
theories/CrashHistoryProofs.v
theories/CrashIdle.v
theories/CrashModel.v
theories/CrashProofs.v
theories/CrashSpec.v
theories/DebugModel.v
theories/DebugPatternProofs.v
theories/DebugProofs.v
theories/DebugReadProofs.v
theories/DebugRunProofs.v
theories/DebugSpec.v
theories/DebugTermProofs.v
theories/DisplayContainerModel.v
theories/DisplayExactProofs.v
theories/DisplayModel.v
theories/DisplayProofs.v
theories/DisplayRunProofs.v
theories/DisplaySpec.v
theories/DropAllCountProofs.v
theories/DropAllModel.v
theories/DropAllProofs.v
theories/DropCountProofs.v
theories/DropIProofs.v
theories/DropModel.v
theories/DropProofs.v
theories/DropSpec.v
theories/EditModel.v
theories/EditProofs.v
theories/EntailModel.v
theories/EntailProofs.v
theories/ErrorModel.v
theories/ErrorProofs.v
theories/ErrorSpec.v
theories/ExtractCrashModel.v
theories/ExtractCrashProofs.v
theories/ExtractCrashSpec.v
theories/ForgetModel.v
theories/ForgetProofs.v
theories/GenCrashModel.v
theories/GenCrashProofs.v
theories/GenCrashSpec.v
theories/GraphSightProofs.v
theories/HeapBoundProofs.v
theories/HeapProofs.v
theories/HeapSpec.v
theories/ICrashAgree.v
theories/ICrashConvert.v
theories/ICrashHistory.v
theories/ICrashModel.v
theories/ICrashProofs.v
theories/ICrashReads.v
theories/ICrashSpec.v
theories/IGCrashProofs.v
theories/ILedgerProofs.v
theories/IMapProofs.v
theories/IResourceModel.v
theories/IResourceProofs.v
theories/IShelfProofs.v
theories/IndexedConvertProofs.v
theories/IndexedDatasetModel.v
theories/IndexedDatasetProofs.v
theories/IndexedGraphModel.v
theories/IndexedGraphProofs.v
theories/IndexedGraphRunProofs.v
theories/IndexedHistoryProofs.v
theories/IndexedPatternProofs.v
theories/IndexedRunProofs.v
theories/IndexedSpec.v
theories/InterpretationModel.v
theories/InterpretationProofs.v
theories/InterpretationSpec.v
theories/IsoClassProofs.v
theories/IsoCostModel.v
theories/IsoCostProofs.v
theories/IsoCostSpec.v
theories/IsoCostTopProofs.v
theories/IsoEquivProofs.v
theories/IsoExactProofs.v
theories/IsoHistoryProofs.v
theories/IsoMapProofs.v
theories/IsoModel.v
theories/IsoProofs.v
theories/IsoRenameProofs.v
theories/IsoSearchProofs.v
theories/IsoSpec.v
theories/IsoTopProofs.v
theories/IterModel.v
theories/IterProofs.v
theories/IterSpec.v
theories/JoinModel.v
theories/JoinProofs.v
theories/JoinSpec.v
theories/KeyModel.v
theories/KeyProofs.v
theories/KeySpec.v
theories/LedgerProofs.v
theories/LedgerSpec.v
theories/LoadModel.v
theories/LoadProofs.v
theories/Machine.v
theories/MacroModel.v
theories/MacroProofs.v
theories/MacroSpec.v
theories/MapCallModel.v
theories/MapCallProofs.v
theories/MapCallSpec.v
theories/MapRunProofs.v
theories/MapSpec.v
theories/MeaningProofs.v
theories/MeaningSpec.v
theories/MergeModel.v
theories/NTriplesSpec.v
theories/OwnProofs.v
theories/P_BTreeDataset.v
theories/P_BTreeGraph.v
theories/P_Bin.v
theories/P_BlankId.v
theories/P_Consume.v
theories/P_Copy.v
theories/P_Count.v
theories/P_Crash.v
theories/P_Debug.v
theories/P_Display.v
theories/P_Drop.v
theories/P_DropAll.v
theories/P_Edit.v
theories/P_Entail.v
theories/P_Error.v
theories/P_ExtractCrash.v
theories/P_Forget.v
theories/P_GenCrash.v
theories/P_Heap.v
theories/P_ICrash.v
theories/P_IndexedDataset.v
theories/P_IndexedGraph.v
theories/P_Interpretation.v
theories/P_Iso.v
theories/P_IsoCost.v
theories/P_IsoEquiv.v
theories/P_Iter.v
theories/P_Join.v
theories/P_Key.v
theories/P_Ledger.v
theories/P_Load.v
theories/P_Macro.v
theories/P_Map.v
theories/P_MapCall.v
theories/P_Meaning.v
theories/P_Patch.v
theories/P_Pattern.v
theories/P_PatternClass.v
theories/P_PatternCrash.v
theories/P_PatternDebug.v
theories/P_PatternGrowth.v
theories/P_PatternMap.v
theories/P_PatternTrial.v
theories/P_Pull.v
theories/P_QueryCost.v
theories/P_Reference.v
theories/P_Relabel.v
theories/P_Rollback.v
theories/P_Scan.v
theories/P_Schema.v
theories/P_Serde.v
theories/P_Shelf.v
theories/P_Sight.v
theories/P_Skolem.v
theories/P_Stream.v
theories/P_Survive.v
theories/P_Term.v
theories/P_Trait.v
theories/P_Triple.v
theories/P_Uuid.v
theories/P_Write.v
theories/PatchModel.v
theories/PatchProofs.v
theories/PatternClassProofs.v
theories/PatternClassSpec.v
theories/PatternCrashModel.v
theories/PatternCrashProofs.v
theories/PatternCrashSpec.v
theories/PatternDebugModel.v
theories/PatternDebugProofs.v
theories/PatternDebugReadProofs.v
theories/PatternDebugRunProofs.v
theories/PatternDebugSpec.v
theories/PatternGrowthModel.v
theories/PatternGrowthProofs.v
theories/PatternGrowthSpec.v
theories/PatternMapModel.v
theories/PatternMapProofs.v
theories/PatternMapSpec.v
theories/PatternProofs.v
theories/PatternSpec.v
theories/PatternTrialModel.v
theories/PatternTrialProofs.v
theories/PatternTrialSpec.v
theories/PlaceProofs.v
theories/PollProofs.v
theories/PullModel.v
theories/PullProofs.v
theories/QuadPatternModel.v
theories/QueryCostModel.v
theories/QueryCostProofs.v
theories/QueryCostSpec.v
theories/QueryCostTopProofs.v
theories/QueryCostWorstProofs.v
theories/RecoverProofs.v
theories/ReferenceProofs.v
theories/ReferenceSpec.v
theories/RelabelModel.v
theories/RelabelProofs.v
theories/RelabelSpec.v
theories/RepoTestRun.v
theories/RepoTestsIso1.v
theories/RepoTestsIso2.v
theories/RepoTestsIso3.v
theories/RepoTestsIso4.v
theories/RepoTestsIsoNegative.v
theories/RollbackProofs.v
theories/RollbackSpec.v
theories/ScanProofs.v
theories/ScanSpec.v
theories/SchemaModel.v
theories/SchemaProofs.v
theories/SchemaSpec.v
theories/SerdeModel.v
theories/SerdeProofs.v
theories/SerdeSpec.v
theories/SetSpec.v
theories/ShelfProofs.v
theories/ShelfSpec.v
theories/SightProofs.v
theories/SightSpec.v
theories/SkolemModel.v
theories/SkolemProofs.v
theories/SlabModel.v
theories/StreamModel.v
theories/StreamProofs.v
theories/StreamSpec.v
theories/SurviveModel.v
theories/SurviveProofs.v
theories/SurviveSpec.v
theories/TermModel.v
theories/TermProofs.v
theories/TermSpec.v
theories/TextModel.v
theories/TextProofs.v
theories/TraitInstModel.v
theories/TraitModel.v
theories/TraitProofs.v
theories/TraitRunProofs.v
theories/TraitSpec.v
theories/TripleConvModel.v
theories/TripleModel.v
theories/TriplePatternModel.v
theories/TripleProofs.v
theories/UuidModel.v
theories/UuidProofs.v
theories/UuidSpec.v
theories/WriteModel.v
theories/WriteProofs.v
theories/WriteSpec.v
