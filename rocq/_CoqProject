-Q theories Verif
theories/Py.v
theories/Arith.v
theories/FloatArith.v
theories/FloatLaws.v
theories/Construct.v
theories/Validation.v
theories/Spec.v
theories/Runs.v
theories/ProofsPy.v
theories/ProofsGrid.v
theories/ProofsConstruct.v
theories/ProofsSolve.v
theories/ProofsPacking.v
theories/ProofsSolution.v
theories/ProofsValues.v
theories/PropertiesSolve.v
theories/Perms.v
theories/LocalSearch.v
theories/SpecSearch.v
theories/ProofsLocalSearch.v
theories/ProofsSearchRun.v
theories/PropertiesSearch.v
theories/PropertiesObjective.v
theories/ItemsManip.v
theories/HyperSearch.v
theories/SpecFloats.v
theories/ProofsFloat.v
theories/ProofsFloatOrder.v
theories/ProofsFloatValues.v
theories/ProofsFloatSums.v
theories/PropertiesItems.v
theories/ProofsFloatSame.v
theories/PropertiesFloat.v
theories/PropertiesFloatMulti.v
theories/SpecPoints.v
theories/SpecFilling.v
theories/ProofsPoints.v
theories/ProofsFilling.v
theories/PropertiesPoints.v
theories/ProofsHyper.v
theories/PropertiesHyper.v
theories/PropertiesFinalHeight.v
theories/ProofsOversize.v
theories/PropertiesOversize.v
theories/ProofsLonger.v
theories/PropertiesLonger.v
theories/ProofsLoose.v
theories/MultiProcess.v
theories/ProofsMulti.v
theories/ProofsPartition.v
theories/PropertiesPartition.v
theories/PropertiesMulti.v
theories/Values.v
theories/Settings.v
theories/Instance.v
theories/SpecInstance.v
theories/ProofsVal.v
theories/ProofsMachine.v
theories/ProofsOps.v
theories/ProofsRun.v
theories/ProofsSolver.v
theories/ProofsAccept.v
theories/ProofsHistory.v
theories/PropertiesStructures.v
theories/PropertiesHistory.v
theories/ProofsFrame.v
theories/SpecMapping.v
theories/ProofsMapping.v
theories/PropertiesMapping.v
theories/ProofsRefine.v
theories/PropertiesCount.v
theories/PropertiesInstance.v
theories/SpecSettings.v
theories/ProofsSettings.v
theories/ProofsVersions.v
theories/PropertiesSettings.v
theories/Colours.v
theories/Report.v
theories/SpecReport.v
theories/ProofsFigure.v
theories/PropertiesReport.v
theories/Utils.v
theories/ProofsUtils.v
theories/PropertiesUtils.v
theories/Text.v
theories/SpecText.v
theories/ProofsText.v
theories/ProofsTextFloat.v
theories/PropertiesText.v
theories/PointGen.v
theories/SpecPointGen.v
theories/ProofsPointGen.v
theories/PropertiesPointGen.v
theories/PropertiesOverlap.v
theories/MultiHistory.v
theories/SpecMultiHistory.v
theories/ProofsMultiHistory.v
theories/PropertiesMultiHistory.v
theories/PropertiesProvenance.v
theories/Benchmarks.v
theories/PropertiesBenchmarks.v
theories/ProofsAgain.v
theories/PropertiesAgain.v
theories/ProofsRename.v
theories/PropertiesRename.v
theories/ProofsProcesses.v
theories/PropertiesProcesses.v
theories/Memory.v
theories/SpecMemory.v
theories/ProofsMemory.v
theories/ProofsMemorySearch.v
theories/ProofsMemoryItems.v
theories/PropertiesMemory.v
theories/SpecValues.v
theories/PropertiesValues.v
theories/Reading.v
theories/SpecReading.v
theories/ProofsReading.v
theories/PropertiesReading.v
theories/Logging.v
theories/SpecLogging.v
theories/PropertiesLogging.v
theories/PropertiesRecords.v
theories/ExamplesLogging.v
theories/ProofsWorkers.v
theories/PropertiesWorkers.v
theories/PropertiesMore.v
theories/ProofsTall.v
theories/ProofsTallSearch.v
theories/PropertiesTall.v
theories/PropertiesRenameMore.v
theories/ProofsLeftover.v
theories/PropertiesLeftover.v
theories/PropertiesLeftoverHistory.v
