-Q theories Verif
theories/Base.v
theories/BaseProofs.v
theories/ExampleData.v
theories/ModelAvx2.v
theories/ModelAvx2Imp.v
theories/ModelC.v
theories/ModelConv.v
theories/ModelConvAvx2.v
theories/ModelConvAvx2Imp.v
theories/ModelConvHeap.v
theories/ModelDataset.v
theories/ModelDense.v
theories/ModelDenseExec.v
theories/ModelEngine.v
theories/ModelExecutor.v
theories/ModelFeedback.v
theories/ModelHeap.v
theories/ModelHeapRun.v
theories/ModelImdb.v
theories/ModelInferImp.v
theories/ModelInference.v
theories/ModelInput.v
theories/ModelLayout.v
theories/ModelLifecycle.v
theories/ModelMachine.v
theories/ModelMulti.v
theories/ModelNeon.v
theories/ModelNeonImp.v
theories/ModelNumpy.v
theories/ModelPool.v
theories/ModelPoolExec.v
theories/ModelPredictor.v
theories/ModelPy.v
theories/ModelPySparse.v
theories/ModelRandom.v
theories/ModelRegistry.v
theories/ModelRuleSet.v
theories/ModelSearch.v
theories/ModelSparse.v
theories/ModelSparseFile.v
theories/ModelSparseImp.v
theories/ModelSparseLife.v
theories/ModelTMHeap.v
theories/ModelTrainer.v
theories/ModelTrainerAvx2.v
theories/ModelTrainerDense.v
theories/ModelTrainerFeedback.v
theories/ModelTrainerNeon.v
theories/ModelTrainerSparse.v
theories/ModelWriters.v
theories/ProofsAvx2.v
theories/ProofsAvx2Hist.v
theories/ProofsAvx2Imp.v
theories/ProofsAvx2ImpB.v
theories/ProofsAvx2ImpC.v
theories/ProofsAvx2ImpD.v
theories/ProofsAvx2ImpE.v
theories/ProofsAvx2Scalar.v
theories/ProofsAvx2Step.v
theories/ProofsC.v
theories/ProofsClause.v
theories/ProofsConv.v
theories/ProofsConvAvx2.v
theories/ProofsConvAvx2Hist.v
theories/ProofsConvAvx2Imp.v
theories/ProofsConvAvx2ImpB.v
theories/ProofsConvAvx2ImpC.v
theories/ProofsConvAvx2ImpD.v
theories/ProofsConvAvx2ImpE.v
theories/ProofsConvAvx2One.v
theories/ProofsConvAvx2Step.v
theories/ProofsConvHeap.v
theories/ProofsConvHeapB.v
theories/ProofsConvHeapC.v
theories/ProofsConvHeapD.v
theories/ProofsConvHeapE.v
theories/ProofsConvStep.v
theories/ProofsDenseExec.v
theories/ProofsEngine.v
theories/ProofsEngineDraw.v
theories/ProofsEnginePerm.v
theories/ProofsEngineUse.v
theories/ProofsEval.v
theories/ProofsExecutor.v
theories/ProofsFeedback.v
theories/ProofsFlip.v
theories/ProofsHeap.v
theories/ProofsHeapMore.v
theories/ProofsHeapRun.v
theories/ProofsHistory.v
theories/ProofsImdb.v
theories/ProofsInferImp.v
theories/ProofsInference.v
theories/ProofsInput.v
theories/ProofsLayout.v
theories/ProofsLearnable.v
theories/ProofsLearnableAll.v
theories/ProofsLearnableAvx2.v
theories/ProofsLearnableGame.v
theories/ProofsLearnableNeon.v
theories/ProofsLearning.v
theories/ProofsLifecycle.v
theories/ProofsMachine.v
theories/ProofsMulti.v
theories/ProofsNeon.v
theories/ProofsNeonHist.v
theories/ProofsNeonImp.v
theories/ProofsNeonImpB.v
theories/ProofsNeonImpC.v
theories/ProofsNeonImpD.v
theories/ProofsNeonImpE.v
theories/ProofsNeonScalar.v
theories/ProofsNeonStep.v
theories/ProofsNeonTwin.v
theories/ProofsNumpy.v
theories/ProofsPool.v
theories/ProofsPoolBlocks.v
theories/ProofsPoolExec.v
theories/ProofsPoolExecLive.v
theories/ProofsPoolFork.v
theories/ProofsPoolLive.v
theories/ProofsPoolStop.v
theories/ProofsPredictor.v
theories/ProofsPy.v
theories/ProofsPyHist.v
theories/ProofsPySparse.v
theories/ProofsPySparseFb.v
theories/ProofsPySparseInv.v
theories/ProofsPySparseMore.v
theories/ProofsPyStep.v
theories/ProofsRandom.v
theories/ProofsRandomVec.v
theories/ProofsRandomXo.v
theories/ProofsRegistry.v
theories/ProofsRename.v
theories/ProofsRenameGen.v
theories/ProofsRenameMore.v
theories/ProofsRenameSimd.v
theories/ProofsRenameUniform.v
theories/ProofsRuleSet.v
theories/ProofsSearch.v
theories/ProofsSearchB.v
theories/ProofsSettled.v
theories/ProofsSettledBlocks.v
theories/ProofsSettledConv.v
theories/ProofsSim.v
theories/ProofsSparse.v
theories/ProofsSparseFeedback.v
theories/ProofsSparseFile.v
theories/ProofsSparseImp.v
theories/ProofsSparseImpFb.v
theories/ProofsSparseInv.v
theories/ProofsSparseRules.v
theories/ProofsSparseSort.v
theories/ProofsSparseSplit.v
theories/ProofsSparseState.v
theories/ProofsStep.v
theories/ProofsTMHeap.v
theories/ProofsTMHeapB.v
theories/ProofsTMHeapC.v
theories/ProofsTMHeapD.v
theories/ProofsTMHeapE.v
theories/ProofsTMHeapF.v
theories/ProofsTMHeapG.v
theories/ProofsTMHeapH.v
theories/ProofsTopConv.v
theories/ProofsTopExecutor.v
theories/ProofsTopInference.v
theories/ProofsTopLearning.v
theories/ProofsTopPool.v
theories/ProofsTopo.v
theories/ProofsTrainer.v
theories/ProofsTrainerAvx2.v
theories/ProofsTrainerDense.v
theories/ProofsTrainerFeedback.v
theories/ProofsTrainerGen.v
theories/ProofsTrainerNeon.v
theories/ProofsTrainerParams.v
theories/ProofsTrainerPool.v
theories/ProofsTrainerRun.v
theories/ProofsTrainerSparse.v
theories/ProofsWriters.v
theories/PropertiesAvx2.v
theories/PropertiesAvx2Imp.v
theories/PropertiesConv.v
theories/PropertiesConvAvx2.v
theories/PropertiesConvAvx2Imp.v
theories/PropertiesConvHeap.v
theories/PropertiesEngine.v
theories/PropertiesExecutor.v
theories/PropertiesFeedback.v
theories/PropertiesFlip.v
theories/PropertiesHeap.v
theories/PropertiesImdb.v
theories/PropertiesInferImp.v
theories/PropertiesInference.v
theories/PropertiesInput.v
theories/PropertiesLearnable.v
theories/PropertiesLearnableAvx2.v
theories/PropertiesLearnableNeon.v
theories/PropertiesLearning.v
theories/PropertiesLifecycle.v
theories/PropertiesMachine.v
theories/PropertiesMulti.v
theories/PropertiesMultiPred.v
theories/PropertiesNeon.v
theories/PropertiesNeonImp.v
theories/PropertiesNumpy.v
theories/PropertiesPool.v
theories/PropertiesPy.v
theories/PropertiesPySparse.v
theories/PropertiesRandom.v
theories/PropertiesRegistry.v
theories/PropertiesRename.v
theories/PropertiesRenameMore.v
theories/PropertiesRenameSimd.v
theories/PropertiesRenameUniform.v
theories/PropertiesSearch.v
theories/PropertiesSettled.v
theories/PropertiesSparse.v
theories/PropertiesSparseFile.v
theories/PropertiesSparseImp.v
theories/PropertiesSparseLife.v
theories/PropertiesTrainer.v
theories/PropertiesTrainerAvx2.v
theories/PropertiesTrainerDense.v
theories/PropertiesTrainerFeedback.v
theories/PropertiesTrainerNeon.v
theories/PropertiesTrainerParams.v
theories/PropertiesTrainerRun.v
theories/PropertiesTrainerSparse.v
theories/PropertiesWriters.v
theories/Spec.v
theories/SpecAvx2.v
theories/SpecAvx2Imp.v
theories/SpecConv.v
theories/SpecConvAvx2.v
theories/SpecConvAvx2Imp.v
theories/SpecConvHeap.v
theories/SpecFlip.v
theories/SpecHeap.v
theories/SpecImdb.v
theories/SpecInferImp.v
theories/SpecInput.v
theories/SpecLearnable.v
theories/SpecLearnableAvx2.v
theories/SpecLearnableNeon.v
theories/SpecLearning.v
theories/SpecLifecycle.v
theories/SpecMulti.v
theories/SpecMultiPred.v
theories/SpecNeon.v
theories/SpecNeonImp.v
theories/SpecNumpy.v
theories/SpecPool.v
theories/SpecPoolExec.v
theories/SpecPySparse.v
theories/SpecRegistry.v
theories/SpecRename.v
theories/SpecRenameMore.v
theories/SpecRenameSimd.v
theories/SpecRenameUniform.v
theories/SpecSearch.v
theories/SpecSettled.v
theories/SpecSparse.v
theories/SpecSparseImp.v
theories/SpecTrainerAvx2.v
theories/SpecTrainerDense.v
theories/SpecTrainerFeedback.v
theories/SpecTrainerNeon.v
theories/SpecTrainerRun.v
theories/SpecTrainerSparse.v
theories/SpecTraining.v
