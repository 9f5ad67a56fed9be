-Q theories Verif
theories/PyBase.v
theories/PyBaseFacts.v
theories/NumpyModel.v
theories/NumpyFacts.v
theories/QSum.v
theories/AxisModel.v
theories/AxisSpec.v
theories/AxisFacts.v
theories/AxisInterpFacts.v
theories/PropAxis.v
theories/NdModel.v
theories/NdFacts.v
theories/FieldModel.v
theories/FieldSpec.v
theories/FieldInvFacts.v
theories/FieldNodedFacts.v
theories/FieldRearrFacts.v
theories/FieldBuildFacts.v
theories/FieldReduceFacts.v
theories/FieldOpFacts.v
theories/FieldIntFacts.v
theories/FieldGridFacts.v
theories/FieldPadFacts.v
theories/FieldDerivFacts.v
theories/FieldIndexFacts.v
theories/FieldCutFacts.v
theories/PropField.v
theories/PropFieldOps.v
theories/PropFieldGrid.v
theories/FieldMapFacts.v
theories/PropFieldShape.v
theories/HelperModel.v
theories/HelperSpec.v
theories/HelperFacts.v
theories/ChunkFacts.v
theories/MoveFacts.v
theories/PropHelper.v
theories/ParticleModel.v
theories/ParticleSpec.v
theories/ParticleFacts.v
theories/ParticleOps.v
theories/ParticleHist.v
theories/ParticleRun.v
theories/ParticleLaws.v
theories/ParticleDemo.v
theories/PropParticle.v
theories/StatModel.v
theories/StatSpec.v
theories/StatFacts.v
theories/StatLaws.v
theories/StatDemo.v
theories/PropStat.v
theories/DepModel.v
theories/DepSpec.v
theories/DepFacts.v
theories/DepHistFacts.v
theories/DepSumFacts.v
theories/DepPadModel.v
theories/DepPadSpec.v
theories/DepPadFacts.v
theories/DepLinFacts.v
theories/HistddModel.v
theories/HistddFacts.v
theories/PropDep.v
theories/RegistryModel.v
theories/RegistrySpec.v
theories/RegistryFacts.v
theories/RegistryDemo.v
theories/PropRegistry.v
theories/RealModel.v
theories/RealFacts.v
theories/RealDemo.v
theories/PropReal.v
theories/HistoryModel.v
theories/HistorySpec.v
theories/HistoryFacts.v
theories/HistoryLaws.v
theories/HistoryDemo.v
theories/PropHistory.v
theories/HistorySkip.v
theories/PropSkip.v
theories/CplxModel.v
theories/CplxFacts.v
theories/FftModel.v
theories/FftKernel.v
theories/FftSpec.v
theories/FftAxes.v
theories/FftFacts.v
theories/FftLaws.v
theories/FftMore.v
theories/FftShift.v
theories/FftDemo.v
theories/PropFft.v
theories/ReaderModel.v
theories/ReaderSpec.v
theories/ReaderFacts.v
theories/ReaderGrid.v
theories/ReaderLaws.v
theories/PropReader.v
theories/ModesModel.v
theories/ModesSpec.v
theories/ModesFacts.v
theories/PropModes.v
theories/CalcModel.v
theories/CalcSpec.v
theories/CalcFacts.v
theories/PropCalc.v
theories/IoModel.v
theories/IoSpec.v
theories/IoFacts.v
theories/IoText.v
theories/IoVtk.v
theories/IoDemo.v
theories/PropIo.v
theories/KspaceModel.v
theories/KspaceSpec.v
theories/KspaceFrame.v
theories/KspaceFacts.v
theories/KspaceTotal.v
theories/KspaceWave.v
theories/KspaceProp.v
theories/KspaceDemo.v
theories/KspaceEpoch.v
theories/PropKspace.v
theories/HeapModel.v
theories/HeapSpec.v
theories/HeapFacts.v
theories/HeapLaws.v
theories/HeapApart.v
theories/HeapValue.v
theories/HeapDemo.v
theories/PropHeap.v
theories/SpeciesModel.v
theories/SpeciesSpec.v
theories/SpeciesFacts.v
theories/SpeciesTotal.v
theories/SpeciesLaws.v
theories/PropSpecies.v
theories/FftWaveSpec.v
theories/FftWave.v
theories/UnstagModel.v
theories/UnstagSpec.v
theories/UnstagFacts.v
theories/UnstagMedian.v
theories/UnstagDemo.v
theories/PropUnstag.v
theories/KspaceMatchSpec.v
theories/KspaceMatch.v
theories/KspaceRefuse.v
theories/PropKmatch.v
theories/UnstagRefuse.v
theories/MapModel.v
theories/MapSpec.v
theories/MapFacts.v
theories/MapLaws.v
theories/MapMore.v
theories/LinShiftSpec.v
theories/LinShift.v
theories/PolarSpec.v
theories/PolarFacts.v
theories/MapDemo.v
theories/CollectModel.v
theories/CollectSpec.v
theories/CollectFacts.v
theories/CollectLaws.v
theories/CollectDemo.v
theories/PropCollect.v
theories/DispModel.v
theories/DispSpec.v
theories/DispFacts.v
theories/PropDisp.v
theories/TimeModel.v
theories/TimeSpec.v
theories/TimeFacts.v
theories/TimeLaws.v
theories/TimeDemo.v
theories/PropTime.v
theories/PropMap.v
theories/PlotNameModel.v
theories/PlotNameSpec.v
theories/PlotNameFacts.v
theories/PropPlotName.v
theories/PlotModel.v
theories/PlotSpec.v
theories/PlotFacts.v
theories/PlotDemo.v
theories/PropPlot.v
theories/IndexModel.v
theories/IndexSpec.v
theories/IndexFacts.v
theories/IndexDemo.v
theories/PropIndex.v
theories/ListModel.v
theories/ListSpec.v
theories/ListFacts.v
theories/ListLaws.v
theories/PropList.v
theories/IntegModel.v
theories/IntegSpec.v
theories/IntegLines.v
theories/IntegFacts.v
theories/IntegLaws.v
theories/PropInteg.v
theories/VtkFileModel.v
theories/VtkFileSpec.v
theories/VtkFileFacts.v
theories/VtkFileLaws.v
theories/VtkFileDemo.v
theories/PropVtkFile.v
theories/TukeyModel.v
theories/TukeySpec.v
theories/TukeyFacts.v
theories/PropTukey.v
theories/AdaptModel.v
theories/AdaptSpec.v
theories/AdaptFacts.v
theories/AdaptDemo.v
theories/PropAdapt.v
theories/LogModel.v
theories/LogSpec.v
theories/LogFacts.v
theories/LogDemo.v
theories/PropLog.v
theories/KspaceCutSpec.v
theories/KspaceCut.v
theories/KspaceLinSpec.v
theories/KspaceLin.v
theories/JacDefModel.v
theories/JacDefSpec.v
theories/JacDefFacts.v
theories/PropJacDef.v
theories/UfuncModel.v
theories/UfuncSpec.v
theories/UfuncFacts.v
theories/UfuncLaws.v
theories/PropUfunc.v
theories/AccessModel.v
theories/AccessSpec.v
theories/AccessFacts.v
theories/AccessDemo.v
theories/PropAccess.v
theories/AxisObjModel.v
theories/AxisObjSpec.v
theories/AxisObjFacts.v
theories/AxisObjDemo.v
theories/PropAxisObj.v
theories/AssignModel.v
theories/AssignSpec.v
theories/AssignFacts.v
theories/PropAssign.v
theories/KspaceEpochCut.v
theories/EpochOldModel.v
theories/EpochOldSpec.v
theories/EpochOldFacts.v
theories/EpochOldDemo.v
theories/PropEpochOld.v
theories/KspacePartSpec.v
theories/KspaceMatchLin.v
theories/KspacePart.v
theories/PageModel.v
theories/PageSpec.v
theories/PageFacts.v
theories/PageRun.v
theories/PropPage.v
theories/EvalModel.v
theories/EvalSpec.v
theories/EvalFacts.v
theories/EvalDemo.v
theories/PropEval.v
theories/CaseSpec.v
theories/CaseFacts.v
theories/AxisKeepSpec.v
theories/AxisKeepFacts.v
theories/StateFacts.v
theories/PropKeep.v
theories/KspaceMissing.v
theories/KspaceUnknown.v
theories/KspaceCutLinSpec.v
theories/KspaceCutLin.v
theories/PropMiss.v
theories/AxisRevFacts.v
theories/PropRev.v
theories/KspaceMissingCut.v
theories/PropMissCut.v
theories/HfftModel.v
theories/HfftSpec.v
theories/HfftFacts.v
theories/SequenceModel.v
theories/SequenceFacts.v
theories/PropHfft.v
theories/LabelModel.v
theories/LabelFacts.v
theories/PropLabel.v
theories/AxLabelModel.v
theories/AxLabelSpec.v
theories/AxLabelFacts.v
theories/PropAxLabel.v
theories/TightFacts.v
theories/PropTight.v
