-Q theories Verif

theories/Num.v
theories/PyBase.v
theories/XReal.v
theories/Erf.v
theories/Tools.v
theories/PyBaseFacts.v
theories/Prior.v
theories/Scaler.v
theories/RList.v
theories/SpecTools.v
theories/ToolsFacts.v
theories/TrimFacts.v
theories/ResampleFacts.v
theories/ToolsSpecFacts.v
theories/ChoiceFacts.v
theories/PropTools.v
theories/ScalerStruct.v
theories/FloatNum.v
theories/WrapFacts.v
theories/SpecScaler.v
theories/ScalerFacts.v
theories/ScalerSpecFacts.v
theories/ScalerFitFacts.v
theories/PriorFacts.v
theories/ScalerCases.v
theories/PropPrior.v
theories/PropScaler.v
theories/Particles.v
theories/SpecParticles.v
theories/ParticlesFacts.v
theories/PropParticles.v
theories/Parallel.v
theories/ParallelFacts.v
theories/CloseFacts.v
theories/PoolFacts.v
theories/PropParallel.v
theories/LogLike.v
theories/Geometry.v
theories/Mcmc.v
theories/Flow.v
theories/LogLikeFacts.v
theories/PropLogLike.v
theories/SpecFlow.v
theories/FlowFacts.v
theories/FlowTrainFacts.v
theories/FlowCases.v
theories/PropFlow.v
theories/SpecGeometry.v
theories/GeometryFacts.v
theories/PropGeometry.v
theories/SpecMcmc.v
theories/McmcFacts.v
theories/McmcInv.v
theories/McmcGuard.v
theories/McmcCoherent.v
theories/McmcJunk.v
theories/McmcNum.v
theories/McmcSigma.v
theories/SpecBalance.v
theories/BalanceFacts.v
theories/BalanceDensity.v
theories/McmcBalance.v
theories/McmcCases.v
theories/McmcRun.v
theories/PropMcmc.v
theories/Sampler.v
theories/SpecConfig.v
theories/ConfigFacts.v
theories/ConfigCases.v
theories/PropConfig.v
theories/SpecReach.v
theories/SamplerFacts.v
theories/Reach.v
theories/SpecRun.v
theories/BetaFacts.v
theories/RowFacts.v
theories/ParticleInv.v
theories/HistoryFacts.v
theories/B64Facts.v
theories/XUnit.v
theories/SpecExact.v
theories/HistoryExact.v
theories/ExactCase.v
theories/RunCase.v
theories/RunCaseFacts.v
theories/RunSteps.v
theories/HistoryMain.v
theories/PropBeta.v
theories/PropHistory.v
theories/SpecEss.v
theories/BisectFacts.v
theories/FiniteHistory.v
theories/SpecLoop.v
theories/LoopFacts.v
theories/CounterFacts.v
theories/LoopExact.v
theories/StuckCase.v
theories/SpecSupport.v
theories/SupportFacts.v
theories/SpecEvidence.v
theories/EvidenceFacts.v
theories/HaltCase.v
theories/LoopMain.v
theories/BootFacts.v
theories/LoopCase.v
theories/PropLoop.v
theories/SpecTrace.v
theories/PoolSwap.v
theories/TraceFacts.v
theories/ResumeFacts.v
theories/WarmFacts.v
theories/TraceCase.v
theories/TraceMain.v
theories/PropTrace.v
theories/SpecPosterior.v
theories/PosteriorFacts.v
theories/PosteriorExact.v
theories/PosteriorMain.v
theories/PosteriorCase.v
theories/PropPosterior.v
theories/SpecNan.v
theories/NanFacts.v
theories/NanCase.v
theories/PropNan.v
theories/Persist.v
theories/SpecPersist.v
theories/PersistFacts.v
theories/PersistFs.v
theories/PersistMain.v
theories/PersistCase.v
theories/PropPersist.v
theories/SpecPickle.v
theories/Pickle.v
theories/PickleFacts.v
theories/PropPickle.v
theories/SpecChain.v
theories/ChainFacts.v
theories/ChainSim.v
theories/ChainLaws.v
theories/ChainRun.v
theories/ChainMain.v
theories/ChainTotal.v
theories/ChainSteps.v
theories/ChainCases.v
theories/PropChain.v
theories/ScalerReal.v
theories/SpecIterate.v
theories/SelectFacts.v
theories/FitData.v
theories/IterateFacts.v
theories/IterateFit.v
theories/IterateTotal.v
theories/IterateCase.v
theories/PropIterate.v
theories/PropFit.v
theories/SpecStudent.v
theories/StudentFacts.v
theories/StudentIter.v
theories/PropStudent.v
theories/SpecWarmup.v
theories/WarmRun.v
theories/PropWarmup.v
theories/StepSize.v
theories/PropStep.v
theories/EvidenceRange.v
theories/ExactRun.v
theories/PropBoot.v
theories/SpecLater.v
theories/IterateLater.v
theories/PropLater.v
theories/SpecReturn.v
theories/ReturnFacts.v
theories/ReturnCase.v
theories/PropReturn.v
theories/SpecTrainReturn.v
theories/TrainReturn.v
theories/SpecFlowReturn.v
theories/FlowReturn.v
theories/SpecLoopReturn.v
theories/LoopReturn.v
theories/FlowReturnCase.v
theories/PropLoopReturn.v
theories/SpecRunReturn.v
theories/RunReturn.v
theories/RunAgain.v
theories/PropRunReturn.v
theories/PropEvidence.v
theories/SpecShift.v
theories/ShiftX.v
theories/ShiftMcmc.v
theories/ShiftSampler.v
theories/ShiftRun.v
theories/ShiftLoop.v
theories/PropShift.v
theories/SpecRescale.v
theories/RescaleMcmc.v
theories/RescaleRun.v
theories/PropRescale.v
theories/Bar.v
theories/SpecBar.v
theories/BarFacts.v
theories/BarCase.v
theories/PropBar.v
