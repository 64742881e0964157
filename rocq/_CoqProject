-Q theories Verif
theories/AcrossMain.v
theories/Ansys.v
theories/AnsysCases.v
theories/AnsysExamples.v
theories/AnsysExport.v
theories/AnsysExportSpec.v
theories/AnsysMain.v
theories/AnsysMainCases.v
theories/AnsysMainFinal.v
theories/AnsysMainProofs.v
theories/AnsysMainRun.v
theories/AnsysMainSpec.v
theories/AnsysMainText.v
theories/AnsysMore.v
theories/AnsysPipe.v
theories/AnsysProofs.v
theories/AnsysSpec.v
theories/AnsysText.v
theories/AssignProofs.v
theories/Atomic.v
theories/AtomicActs.v
theories/AtomicCut.v
theories/AtomicFinal.v
theories/AtomicFlip.v
theories/AtomicInner.v
theories/AtomicMain.v
theories/AtomicProofs.v
theories/AtomicRun.v
theories/AtomicSeq.v
theories/AtomicSpec.v
theories/AtomicTwo.v
theories/BagProofs.v
theories/BfsProofs.v
theories/CalcProofs.v
theories/CloudProofs.v
theories/CloudSort.v
theories/CollapseCases.v
theories/CollapseMain.v
theories/CollapseNode.v
theories/CollapseRun.v
theories/CollapseRun2.v
theories/CollapseSpec.v
theories/CollapseTopo.v
theories/ContentsCases.v
theories/ContentsProofs.v
theories/ContentsSpec.v
theories/Convert.v
theories/ConvertCases.v
theories/ConvertMore.v
theories/ConvertProofs.v
theories/ConvertSpec.v
theories/Corners.v
theories/CornersProofs.v
theories/CornersSpec.v
theories/Cross.v
theories/CrossMore.v
theories/CrossProofs.v
theories/CrossSpec.v
theories/Crys.v
theories/CrysCases.v
theories/CrysFinal.v
theories/CrysProofs.v
theories/CrysRun.v
theories/CrysSpec.v
theories/CrysStore.v
theories/CsvMore.v
theories/CycleCases.v
theories/CycleProofs.v
theories/CycleSpec.v
theories/DecompMain.v
theories/DecompProofs.v
theories/DecompSpec.v
theories/DegenerateCases.v
theories/DegenerateProofs.v
theories/DeleteProofs.v
theories/DeleteSpec.v
theories/DirProofs.v
theories/Double.v
theories/DoubleCases.v
theories/DoubleDist.v
theories/DoubleDistrib.v
theories/DoubleDistribProofs.v
theories/DoubleExport.v
theories/DoubleExportMain.v
theories/DoubleExportProofs.v
theories/DoubleGeom.v
theories/DoubleGeomCases.v
theories/DoubleGeomSpec.v
theories/DoubleMore.v
theories/DoubleProofs.v
theories/DoubleQuality.v
theories/DoubleQualityCases.v
theories/DoubleQualityProofs.v
theories/DoubleQualitySpec.v
theories/DoubleRefused.v
theories/DoubleRefusedSpec.v
theories/DoubleSpec.v
theories/DoubleStats.v
theories/DoubleStatsCases.v
theories/DoubleStatsProofs.v
theories/DoubleStatsSpec.v
theories/Driver.v
theories/DriverProofs.v
theories/DriverSpec.v
theories/Drops.v
theories/DropsCases.v
theories/DropsFlight.v
theories/DropsMore.v
theories/DropsProofs.v
theories/DropsSpec.v
theories/DropsText.v
theories/DropsTextCases.v
theories/DropsTextProofs.v
theories/DropsTextSpec.v
theories/EndsProofs.v
theories/EndsSpec.v
theories/Exchange.v
theories/ExchangeProofs.v
theories/ExchangeSpec.v
theories/Explode.v
theories/ExplodeCase.v
theories/ExplodeCases.v
theories/ExplodeProofs.v
theories/ExplodeSpec.v
theories/FarhatProofs.v
theories/FileSpec.v
theories/FlatProofs.v
theories/ForeignProofs.v
theories/ForeignSpec.v
theories/Frames.v
theories/Gather.v
theories/GatherProofs.v
theories/Geom.v
theories/GeomMore.v
theories/GeomProofs.v
theories/GeomSpec.v
theories/GloIds.v
theories/GloIdsCases.v
theories/GloIdsProofs.v
theories/GloIdsSpec.v
theories/GridIO.v
theories/GridModel.v
theories/GridSpec.v
theories/GrowthProofs.v
theories/Heap.v
theories/HeapLemmas.v
theories/HierProofs.v
theories/Import.v
theories/ImportCases.v
theories/ImportMore.v
theories/ImportProofs.v
theories/ImportSpec.v
theories/ImportWords.v
theories/ImportWordsSpec.v
theories/Info.v
theories/InfoArrays.v
theories/InfoCases.v
theories/InfoMore.v
theories/InfoProofs.v
theories/InfoSpec.v
theories/Laws.v
theories/LawsMore.v
theories/LawsNames.v
theories/LawsProofs.v
theories/LawsSpec.v
theories/LawsTables.v
theories/LazuritMain.v
theories/LazuritMainBack.v
theories/LazuritMainCases.v
theories/LazuritMainFinal.v
theories/LazuritMainProofs.v
theories/LazuritMainSpec.v
theories/LoadEdges.v
theories/LoadFresh.v
theories/LoadMain.v
theories/LoadParse.v
theories/LoadPlace.v
theories/LoadProps.v
theories/MergeProofs.v
theories/Mpi.v
theories/MpiProofs.v
theories/MpiSpec.v
theories/NamesExact.v
theories/Options.v
theories/OptionsCases.v
theories/OptionsProofs.v
theories/OptionsSpec.v
theories/OptionsWrong.v
theories/PartialZones.v
theories/PatchDel.v
theories/PatchDone.v
theories/PatchProofs.v
theories/PatchRun.v
theories/PatchTmpl.v
theories/PlainProofs.v
theories/Programs.v
theories/ProgramsCases.v
theories/ProgramsDrops.v
theories/ProgramsMore.v
theories/ProgramsNames.v
theories/ProgramsProofs.v
theories/ProgramsSpec.v
theories/ProgramsStall.v
theories/PropertiesAcross.v
theories/PropertiesAnsys.v
theories/PropertiesAnsysMain.v
theories/PropertiesAtomic.v
theories/PropertiesCollapse.v
theories/PropertiesContents.v
theories/PropertiesConvert.v
theories/PropertiesCorners.v
theories/PropertiesCross.v
theories/PropertiesCrys.v
theories/PropertiesCrysMain.v
theories/PropertiesCycle.v
theories/PropertiesDecomp.v
theories/PropertiesDegenerate.v
theories/PropertiesDelete.v
theories/PropertiesDouble.v
theories/PropertiesDoubleGeom.v
theories/PropertiesDrops.v
theories/PropertiesDropsText.v
theories/PropertiesEnds.v
theories/PropertiesExplode.v
theories/PropertiesExport.v
theories/PropertiesForeign.v
theories/PropertiesGeom.v
theories/PropertiesGloIds.v
theories/PropertiesIO.v
theories/PropertiesImport.v
theories/PropertiesInfo.v
theories/PropertiesLaws.v
theories/PropertiesLazurit.v
theories/PropertiesMpi.v
theories/PropertiesOptions.v
theories/PropertiesPrograms.v
theories/PropertiesQuality.v
theories/PropertiesRedivide.v
theories/PropertiesRefine.v
theories/PropertiesRemesh.v
theories/PropertiesRemeshDir.v
theories/PropertiesRestart.v
theories/PropertiesShapes.v
theories/PropertiesSolver.v
theories/PropertiesStable.v
theories/PropertiesStamps.v
theories/PropertiesStats.v
theories/PropertiesTools.v
theories/PropertiesTransfer.v
theories/PropertiesUtils.v
theories/PropertiesZam.v
theories/Py.v
theories/PyLemmas.v
theories/Redivide.v
theories/RedivideCases.v
theories/RedivideProofs.v
theories/RedivideSpec.v
theories/Refine.v
theories/RefineCases.v
theories/RefinePrep.v
theories/RefineProofs.v
theories/RefineSpec.v
theories/Remesh.v
theories/RemeshDir.v
theories/RemeshDirCases.v
theories/RemeshDirProofs.v
theories/RemeshDirSpec.v
theories/RemeshMore.v
theories/RemeshProofs.v
theories/RemeshSpec.v
theories/RestartCases.v
theories/RestartProofs.v
theories/RestartSpec.v
theories/RoundTrip.v
theories/Samples.v
theories/SamplesAtomic.v
theories/SamplesCrys.v
theories/SamplesDriver.v
theories/SamplesIO.v
theories/SamplesMpi.v
theories/SamplesStore.v
theories/Shapes.v
theories/ShapesProofs.v
theories/SimpleDecomp.v
theories/SmoothProofs.v
theories/Solver.v
theories/SolverCases.v
theories/SolverMain.v
theories/SolverProofs.v
theories/SolverSpec.v
theories/SortProofs.v
theories/SplitProofs.v
theories/StableCases.v
theories/StableFinal.v
theories/StableProofs.v
theories/StableSpec.v
theories/Stamps.v
theories/StampsCases.v
theories/StampsProofs.v
theories/StampsSpec.v
theories/StepsProofs.v
theories/StoreProofs.v
theories/StoreSpec.v
theories/StrategyProofs.v
theories/TextLemmas.v
theories/Transfer.v
theories/TransferCases.v
theories/TransferProofs.v
theories/TransferSpec.v
theories/Utils.v
theories/UtilsProofs.v
theories/UtilsSpec.v
theories/Zam.v
theories/ZamProofs.v
theories/ZamSpec.v
