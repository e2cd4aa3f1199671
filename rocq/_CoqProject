-Q theories Verif
theories/Base.v
theories/ActModel.v
theories/ActSpec.v
theories/ActObs.v
theories/ActCodec.v
theories/ActRep.v
theories/ActAccess.v
theories/ActBuild.v
theories/ActProf.v
theories/ActHold.v
theories/ActOps.v
theories/ActMulti.v
theories/ActDisk.v
theories/ThreadModel.v
theories/ThreadLemmas.v
theories/ActKept.v
theories/ActMore.v
theories/ActWit.v
theories/ActClean.v
theories/ActProps.v
theories/ActCountSpec.v
theories/ActTrack.v
theories/ActTrackBuild.v
theories/ActTrackMore.v
theories/ActTrackHold.v
theories/ActProfWit.v
theories/ActProfProps.v
theories/Num.v
theories/Arith.v
theories/CondModel.v
theories/CondSpec.v
theories/CondBase.v
theories/CondProofs.v
theories/CondEval.v
theories/CondAnd.v
theories/CondMore.v
theories/CondSet.v
theories/CondWit.v
theories/CondProps.v
theories/CondInf.v
theories/CondInfProps.v
theories/ThrModel.v
theories/ThrSpec.v
theories/ThrProofs.v
theories/ThrWit.v
theories/ThrProps.v
theories/MetModel.v
theories/MetSpec.v
theories/MetReg.v
theories/MetErr.v
theories/MetClass.v
theories/MetRate.v
theories/MetWit.v
theories/MetProps.v
theories/RuleModel.v
theories/RuleSpec.v
theories/RuleProofs.v
theories/RuleFit.v
theories/RuleValues.v
theories/RuleEval.v
theories/AttrModel.v
theories/AttrSpec.v
theories/AttrProofs.v
theories/AttrValues.v
theories/RuleMisc.v
theories/RuleRoute.v
theories/RuleMore.v
theories/RuleWit.v
theories/AttrWit.v
theories/AttrProps.v
theories/RuleProps.v
theories/PredModel.v
theories/PredSpec.v
theories/PredReg.v
theories/PredEqual.v
theories/PredStack.v
theories/PredVote.v
theories/PredMode.v
theories/PredMisc.v
theories/PredName.v
theories/PredWit.v
theories/PredProps.v
theories/PredSpread.v
theories/PredSpreadWit.v
theories/PredSpreadProps.v
theories/SetModel.v
theories/SetSpec.v
theories/SetBase.v
theories/SetText.v
theories/SortBase.v
theories/SetSort.v
theories/SetAct.v
theories/SetStack.v
theories/SetAdd.v
theories/SetEq.v
theories/SetMisc.v
theories/SetWit.v
theories/SetProps.v
theories/FitModel.v
theories/FitSpec.v
theories/FitDrop.v
theories/FitMain.v
theories/FitEval.v
theories/FitStack.v
theories/FitVal.v
theories/FitTest.v
theories/FitTotal.v
theories/FitWit.v
theories/FitProps.v
theories/EdgeProofs.v
theories/EdgeWit.v
theories/EdgeProps.v
theories/FitEdge.v
theories/FitEdgeProps.v
theories/TreeModel.v
theories/TreeSpec.v
theories/TreeProofs.v
theories/TreeVisit.v
theories/TreeFacts.v
theories/TreeMore.v
theories/TreeState.v
theories/TreeWit.v
theories/TreeProps.v
theories/SerialModel.v
theories/SerialSpec.v
theories/SerialProofs.v
theories/SerialSave.v
theories/SerialLoad.v
theories/SerialMore.v
theories/SerialRow.v
theories/SerialTotal.v
theories/SerialWit.v
theories/SerialProps.v
theories/SerialOver.v
theories/SerialOverProps.v
theories/PoolModel.v
theories/PoolSpec.v
theories/PoolBase.v
theories/PoolStep.v
theories/PoolLearn.v
theories/PoolProofs.v
theories/PoolMore.v
theories/PoolView.v
theories/PoolLater.v
theories/PoolFrames.v
theories/PoolSort.v
theories/PoolWit.v
theories/PoolProps.v
theories/PoolLoadModel.v
theories/PoolLoadSpec.v
theories/PoolLoad.v
theories/PoolLoadWit.v
theories/PoolLoadProps.v
theories/PoolHistory.v
theories/PoolHistoryProps.v
theories/RefModel.v
theories/RefSpec.v
theories/RefProofs.v
theories/RefAnd.v
theories/RefMore.v
theories/RefTree.v
theories/RefLaws.v
theories/RefWit.v
theories/RefProps.v
theories/RepoTests.v
theories/RepoTests2.v
theories/TextModel.v
theories/TextSpec.v
theories/TextProofs.v
theories/TextMisc.v
theories/TextWit.v
theories/TextProps.v
theories/PlainModel.v
theories/PlainSpec.v
theories/PlainProofs.v
theories/PlainWit.v
theories/PlainProps.v
theories/ActConv.v
theories/ActConvProps.v
theories/RuleCalc.v
theories/FitLength.v
theories/CalcProps.v
theories/RuleReads.v
theories/RuleReadsProps.v
