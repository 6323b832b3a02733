-Q theories Verif
theories/Base.v
theories/Field.v
theories/Util.v
theories/Env.v
theories/Prg.v
theories/Vidpf.v
theories/Merkle.v
theories/Collect.v
theories/Server.v
theories/Driver.v
theories/BaseFacts.v
theories/SpecPrg.v
theories/PrgFacts.v
theories/RefCrypto.v
theories/RefEnv.v
theories/PrgSpecFacts.v
theories/PrgSpecFacts2.v
theories/PropPrg.v
theories/SpecUtil.v
theories/UtilFacts.v
theories/PropUtil.v
theories/SpecVidpf.v
theories/VidpfFacts.v
theories/VidpfEvalFacts.v
theories/VidpfPropFacts.v
theories/SpecTree.v
theories/VidpfTreeFacts.v
theories/VidpfTreeFacts2.v
theories/VidpfTreeFacts3.v
theories/VidpfTreeFacts4.v
theories/TreeIff.v
theories/VidpfPropFacts2.v
theories/PropVidpf.v
theories/SpecCollect.v
theories/SpecServer.v
theories/CollectFacts.v
theories/CollectInv.v
theories/ServerFacts.v
theories/ExRun.v
theories/CollectPropFacts.v
theories/PropCollect.v
theories/DriverFacts.v
theories/SpecDriver.v
theories/DriverPropFacts.v
theories/PropDriver.v
theories/SpecMetrics.v
theories/MetricsFacts.v
theories/PmFacts.v
theories/MetricsExamples.v
theories/PropMetrics.v
theories/SpecCheck.v
theories/RefuteFacts.v
theories/RefuteExamples.v
theories/PropCheck.v
theories/SpecFloat.v
theories/FloatFacts.v
theories/MerkleFacts.v
theories/PropMerkle.v
theories/SpecLevel.v
theories/LevelFacts.v
theories/PairFacts.v
theories/SpecWhh.v
theories/WhhFacts.v
theories/WhhFacts2.v
theories/FlpFacts.v
theories/WhhFacts3.v
theories/WhhMain.v
theories/HonestFacts.v
theories/ToyEnv.v
theories/WhhExamples.v
theories/PropWhh.v
theories/SpecSearch.v
theories/SearchFacts.v
theories/SearchRun.v
theories/SearchMain.v
theories/SearchProp.v
theories/SearchExamples.v
theories/PropSearch.v
theories/SpecLast.v
theories/LastFacts.v
theories/LastProp.v
theories/LastExamples.v
theories/PropLast.v
theories/SpecForge.v
theories/ForgeFacts.v
theories/ForgeProp.v
theories/SpecRun.v
theories/RunFacts.v
theories/RunExamples.v
theories/PropRun.v
theories/ForgeRun.v
theories/ForgeExamples.v
theories/PropForge.v
theories/Modes.v
theories/SpecModes.v
theories/ModesFacts.v
theories/ModesMain.v
theories/PmMain.v
theories/ModesExamples.v
theories/PropModes.v
theories/SpecHash.v
theories/HashFacts.v
theories/PropHash.v
theories/SpecAbm.v
theories/AbmForge.v
theories/AbmRun.v
theories/AnyForge.v
theories/AbmExamples.v
theories/PropAbm.v
theories/Threshold.v
theories/SpecThreshold.v
theories/ThresholdFacts.v
theories/ThresholdRun.v
theories/PropThreshold.v
theories/SpecTwo.v
theories/TwoFacts.v
theories/TwoExamples.v
theories/PropTwo.v
theories/SpecHide.v
theories/HideFacts.v
theories/HideExamples.v
theories/PropHide.v
theories/SpecOne.v
theories/OneFacts.v
theories/OneRun.v
theories/OneForge.v
theories/OneExamples.v
theories/PropOne.v
theories/SpecFlood.v
theories/FloodFacts.v
theories/FloodRun.v
theories/FloodExamples.v
theories/PropFlood.v
theories/PrgStream.v
theories/SpecPrgStream.v
theories/PrgStreamFacts.v
theories/PrgStreamExamples.v
theories/PropPrgStream.v
theories/RepoTests.v
theories/SpecTests.v
theories/RepoTestFacts.v
theories/RepoTestExamples.v
theories/PropTests.v
theories/SpecSpy.v
theories/SpyFacts.v
theories/SpyExamples.v
theories/PropSpy.v
theories/SpecOrder.v
theories/OrderFacts.v
theories/OrderExamples.v
theories/PropOrder.v
theories/SpecAgree.v
theories/AgreeFacts.v
theories/AgreeExamples.v
theories/PropAgree.v
theories/SpecShift.v
theories/ShiftFacts.v
theories/ShiftExamples.v
theories/PropShift.v
theories/SpecBatch.v
theories/BatchFacts.v
theories/TermFacts.v
theories/BatchExamples.v
theories/PropBatch.v
theories/Sched.v
theories/SpecSched.v
theories/SchedFacts.v
theories/SchedRun.v
theories/SchedExamples.v
theories/PropSched.v
theories/Conc.v
theories/SpecConc.v
theories/ConcFacts.v
theories/ConcExamples.v
theories/PropConc.v
theories/Histogram.v
theories/SpecHist.v
theories/PrimeFacts.v
theories/PolyFacts.v
theories/HistFacts.v
theories/HistSound.v
theories/HistRun.v
theories/HistGen.v
theories/HistForge.v
theories/HistExamples.v
theories/PropHist.v
theories/HistSplit.v
theories/SplitExamples.v
theories/PropSplit.v
theories/Prio3.v
theories/SpecPrio3.v
theories/Prio3Facts.v
theories/Prio3Run.v
theories/Prio3Examples.v
theories/PropPrio3.v
theories/SpecVerdict.v
theories/VerdictFacts.v
theories/VerdictPrio3.v
theories/VerdictExamples.v
theories/PropVerdict.v
theories/System.v
theories/SpecSystem.v
theories/SystemFacts.v
theories/SystemExamples.v
theories/PropSystem.v
theories/SpecCensor.v
theories/CensorFacts.v
theories/CensorExamples.v
theories/PropCensor.v
theories/SpecView.v
theories/ViewFacts.v
theories/ViewExamples.v
theories/PropView.v
theories/SpecTamper.v
theories/TamperFacts.v
theories/TamperExamples.v
theories/PropTamper.v
theories/SpecFinal.v
theories/FinalFacts.v
theories/FinalExamples.v
theories/PropFinal.v
theories/SpecDrop.v
theories/DropFacts.v
theories/DropExamples.v
theories/PropDrop.v
theories/SpecSuppress.v
theories/SuppressFacts.v
theories/SuppressExamples.v
theories/PropSuppress.v
theories/SpecVeto.v
theories/VetoFacts.v
theories/VetoExamples.v
theories/PropVeto.v
theories/SpecViews.v
theories/ViewsFacts.v
theories/ViewsExamples.v
theories/PropViews.v
theories/SpecSingle.v
theories/SingleFacts.v
theories/SingleExamples.v
theories/PropSingle.v
theories/SpecRoot.v
theories/RootFacts.v
theories/CollisionFacts.v
theories/UndetectedFacts.v
