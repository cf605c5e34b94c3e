-Q theories Verif
theories/Base.v
theories/Api.v
theories/Spec.v
theories/Map.v
theories/GraphMap.v
theories/BaseFacts.v
theories/MapFacts.v
theories/SpecFacts.v
theories/GraphMapFacts.v
theories/GraphMapRefine.v
theories/GraphMapQueries.v
theories/GraphMapSim.v
theories/GraphMapThms.v
theories/MapThms.v
theories/Properties_Map.v
theories/GraphMapMore.v
theories/ViewFacts.v
theories/GraphMapFrame.v
theories/GraphMapProps.v
theories/GraphMapWit.v
theories/Properties_GraphMap.v
theories/Traverse.v
theories/SpecTraverse.v
theories/TraverseFacts.v
theories/TraverseRun.v
theories/TraverseProps.v
theories/TraverseParts.v
theories/Properties_Traverse.v
theories/SpecConn.v
theories/ConnComp.v
theories/ConnCompFacts.v
theories/ConnCompProps.v
theories/Properties_ConnComp.v
theories/SpecOps.v
theories/GraphOps.v
theories/GraphOpsFacts.v
theories/GraphOpsProps.v
theories/ConnSubProps.v
theories/GraphOpsWit.v
theories/Properties_GraphOps.v
theories/ViewOps.v
theories/ViewOpsProps.v
theories/ViewOpsWit.v
theories/Properties_ViewOps.v
theories/Static.v
theories/SpecStatic.v
theories/StaticFacts.v
theories/SpecSGraph.v
theories/StaticProps.v
theories/IntoStatic.v
theories/StaticMore.v
theories/IntoStaticProps.v
theories/StaticWit.v
theories/Properties_Static.v
theories/SpecReorder.v
theories/Reorder.v
theories/ReorderFacts.v
theories/ReorderProps.v
theories/ReorderThms.v
theories/ReorderMain.v
theories/ReorderWit.v
theories/Properties_Reorder.v
theories/SpecGen.v
theories/Gen.v
theories/GenFacts.v
theories/GenProps.v
theories/Properties_Gen.v
theories/SpecUtf8.v
theories/Utf8.v
theories/Utf8Props.v
theories/Bytes.v
theories/Serde.v
theories/SpecSerde.v
theories/SerdeFacts.v
theories/SerdeWit.v
theories/Properties_Serde.v
theories/Mmap.v
theories/SpecMmap.v
theories/MmapFacts.v
theories/MmapProps.v
theories/MmapThms.v
theories/MmapCrash.v
theories/MmapMore.v
theories/MmapWit.v
theories/Properties_Mmap.v
theories/Properties_MmapCrash.v
theories/Csv.v
theories/SpecCsv.v
theories/CsvFacts.v
theories/CsvProps.v
theories/CsvRead.v
theories/CsvWit.v
theories/Properties_Csv.v
theories/SpecCsvRows.v
theories/CsvRows.v
theories/Properties_CsvRows.v
theories/Ldbc.v
theories/SpecLdbc.v
theories/LdbcFacts.v
theories/LdbcProps.v
theories/LdbcThms.v
theories/LdbcWit.v
theories/Properties_Ldbc.v
theories/Pipeline.v
theories/PipelineWit.v
theories/Properties_Pipeline.v
theories/SpecExamples.v
theories/SpecPath.v
theories/Paths.v
theories/PathProps.v
theories/Examples.v
theories/ExamplesFacts.v
theories/ExamplesLabels.v
theories/ExamplesDensity.v
theories/ExamplesLdbc.v
theories/ExamplesWit.v
theories/Properties_Examples.v
theories/TraverseSame.v
theories/Properties_TraverseSame.v
theories/SpecOpsLaws.v
theories/GraphOpsLaws.v
theories/Properties_GraphOpsLaws.v
theories/LabelIds.v
theories/LabelIdsProps.v
theories/Properties_LabelIds.v
theories/SpecGenWrap.v
theories/GenWrap.v
theories/Properties_GenWrap.v
theories/NodeOps.v
theories/SpecNodeOps.v
theories/NodeOpsProps.v
theories/NodeHandle.v
theories/Properties_NodeOps.v
theories/SpecLabelWrap.v
theories/LabelWrap.v
theories/Properties_LabelWrap.v
theories/SpecStaticAll.v
theories/IntoStaticAll.v
theories/StaticAllWit.v
theories/Properties_StaticAll.v
theories/SpecHist.v
theories/HistFacts.v
theories/HistProps.v
theories/HistWit.v
theories/Properties_Hist.v
theories/SpecFreeze.v
theories/FreezeProps.v
theories/FreezeWit.v
theories/Properties_Freeze.v
theories/AgreeProps.v
theories/AgreeWit.v
theories/HashProps.v
theories/Properties_Agree.v
theories/ConnHeld.v
theories/ConnHeldProps.v
theories/Properties_ConnHeld.v
theories/ConnSubRun.v
theories/SpecConnSub.v
theories/ConnSubRunProps.v
theories/ConnSubRunWit.v
theories/Properties_ConnSub.v
theories/MmapSpan.v
theories/SpecSpan.v
theories/MmapSpanProps.v
theories/Properties_Span.v
theories/Handles.v
theories/HandlesProps.v
theories/Properties_Handles.v
theories/Release.v
theories/SpecRelease.v
theories/ReleaseProps.v
theories/Properties_Release.v
theories/CsvText.v
theories/SpecCsvText.v
theories/CsvTextProps.v
theories/CsvTextGraph.v
theories/CsvTextWit.v
theories/ExamplesText.v
theories/Properties_CsvText.v
theories/StaticEdit.v
theories/StaticEditProps.v
theories/Properties_StaticEdit.v
theories/SpecLdbcOrder.v
theories/LdbcOrder.v
theories/LdbcText.v
theories/SpecLdbcText.v
theories/LdbcTextProps.v
theories/LdbcOrderWit.v
theories/Properties_LdbcText.v
theories/SpecCsvOrder.v
theories/CsvOrder.v
theories/CsvOrderWit.v
theories/Properties_CsvOrder.v
theories/ExamplesPipe.v
theories/PipeWit.v
theories/Properties_CsvPipe.v
theories/SpecLabelHist.v
theories/LabelHist.v
theories/Properties_LabelHist.v
theories/Names.v
theories/SpecNames.v
theories/NamesProps.v
theories/Properties_Names.v
theories/SpecImport.v
theories/ImportAny.v
theories/ImportWit.v
theories/Properties_Import.v
theories/SpecCons.v
theories/StaticCons.v
theories/Properties_StaticCons.v
theories/SpecGenLaw.v
theories/Reservoir.v
theories/GenLaw.v
theories/FloatLt.v
theories/GenLawProps.v
theories/Properties_GenLaw.v
theories/SpecCsvCut.v
theories/CsvCrash.v
theories/CsvCut.v
theories/CsvCutWit.v
theories/Properties_CsvCut.v
theories/GraphMapPanic.v
theories/SpecPanic.v
theories/GraphMapLeft.v
theories/PanicWit.v
theories/Properties_Panic.v
theories/RepoTests.v
theories/RepoTestsGraphMap.v
theories/RepoTestsAlgorithm.v
theories/RepoTestsConverter.v
theories/RepoTestsStatic.v
theories/RepoTestsOther.v
theories/MmapLive.v
theories/SpecLive.v
theories/LiveProps.v
theories/LiveThms.v
theories/LiveWit.v
theories/Properties_Live.v
theories/IoFail.v
theories/SpecIo.v
theories/IoProps.v
theories/IoWit.v
theories/Properties_Io.v
theories/Platform.v
theories/SpecPlatform.v
theories/PlatformProps.v
theories/PlatformThms.v
theories/PlatformWit.v
theories/Properties_Platform.v
theories/SpecConnGrow.v
theories/ConnGrowProps.v
theories/ConnGrowWit.v
theories/Properties_ConnGrow.v
theories/SpecIso.v
theories/IsoProps.v
theories/IsoHist.v
theories/IsoWit.v
theories/Properties_Iso.v
theories/SpecCounters.v
theories/Counters.v
theories/CountersProps.v
theories/Properties_Counters.v
theories/TallyProps.v
theories/TallyWit.v
theories/Properties_Tally.v
theories/SpecRejoin.v
theories/RejoinProps.v
theories/RejoinWit.v
theories/Properties_Rejoin.v
theories/SpecSym.v
theories/SymProps.v
theories/SymWit.v
theories/Properties_Sym.v
theories/SpecWidth.v
theories/WidthProps.v
theories/WidthLdbc.v
theories/WidthWit.v
theories/Properties_Width.v
theories/SpecAlike.v
theories/AlikeProps.v
theories/AlikeWit.v
theories/Properties_Alike.v
theories/SpecConnCost.v
theories/ConnCost.v
theories/ConnCostProps.v
theories/ConnCostWit.v
theories/Properties_ConnCost.v
theories/SpecStore.v
theories/StoreProps.v
theories/StoreWit.v
theories/Properties_Store.v
theories/SpecReorderAny.v
theories/ReorderAny.v
theories/ReorderAnyWit.v
theories/Properties_ReorderAny.v
theories/SpecTravCost.v
theories/TravCost.v
theories/TravCostProps.v
theories/TravParts.v
theories/TravCostWit.v
theories/Properties_TravCost.v
theories/StaticShift.v
theories/Properties_StaticEdges.v
theories/SpecLdbcMerge.v
theories/LdbcMerge.v
theories/Properties_LdbcMerge.v
theories/SpecOverlap.v
theories/OverlapProps.v
theories/Properties_Overlap.v
theories/LabelIdsShift.v
theories/Properties_LabelIdsStatic.v
theories/SymStatic.v
theories/Properties_SymStatic.v
theories/AlikeOps.v
theories/Properties_AlikeOps.v
theories/LdbcFrozen.v
theories/LdbcFrozenWit.v
theories/Properties_LdbcFrozen.v
theories/SpecLdbcIds.v
theories/LdbcIds.v
theories/Properties_LdbcIds.v
