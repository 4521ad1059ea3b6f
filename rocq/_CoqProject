-Q theories Verif
theories/Base.v
theories/Instance.v
theories/ModelIface.v
theories/Core.v
theories/Fmi3.v
theories/Fmi2.v
theories/Api.v
theories/FmuBouncingBall.v
theories/FmuDahlquist.v
theories/FmuStair.v
theories/FmuVanDerPol.v
theories/FmuRoberts.v
theories/FmuClocks.v
theories/FmuResource.v
theories/FmuStateSpace.v
theories/FmuFeedthrough.v
theories/Fmus.v
theories/NumB64.v
theories/NumR.v
theories/Logic.v
theories/LawsFmus.v
theories/SpecModes.v
theories/Gate.v
theories/Frame.v
theories/Frame3.v
theories/Effect.v
theories/Reach.v
theories/Calls.v
theories/SpecDebug.v
theories/Debug.v
theories/SpecState.v
theories/SpecHist.v
theories/Histories.v
theories/SpecCreate.v
theories/Create.v
theories/SpecVars.v
theories/SpecEqs.v
theories/Vars.v
theories/VarsFmus.v
theories/DataFmus.v
theories/Data.v
theories/Multi.v
theories/Dep.v
theories/Keeps.v
theories/KeepRules.v
theories/FTKeep.v
theories/Feed.v
theories/Vars2.v
theories/Data2.v
theories/Feed2.v
theories/Multi2.v
theories/PropData.v
theories/PropData2.v
theories/Samples.v
theories/Modes.v
theories/PropModes.v
theories/Instances.v
theories/PropInstance.v
theories/Sim.v
theories/Sim3.v
theories/SimSys.v
theories/SimRules.v
theories/SimFmus.v
theories/SimFT.v
theories/SimSS.v
theories/Sim2.v
theories/SimSys2.v
theories/SimMade.v
theories/Saves.v
theories/Sizes.v
theories/Getters.v
theories/PureFmus.v
theories/Reads.v
theories/PropState.v
theories/PropReads.v
theories/Dyn.v
theories/Solver.v
theories/KeepSol.v
theories/Fits.v
theories/SpecSteps.v
theories/Steps.v
theories/StepsFmus.v
theories/StepProps.v
theories/StepReal.v
theories/StepCases.v
theories/PropSteps.v
theories/Cut.v
theories/CutReal.v
theories/SpecOde.v
theories/Ode.v
theories/KeepArrays.v
theories/Crossing.v
theories/PropEvents.v
theories/SpecEuler.v
theories/EulerMe.v
theories/Course.v
theories/SpecNumeric.v
theories/Numeric.v
theories/SamplesR.v
theories/PropSolver.v
theories/SpecSpace.v
theories/Space.v
theories/PropSpace.v
theories/Square.v
theories/PropSquare.v
theories/FeedBin.v
theories/PropBinary.v
theories/SpecClocks.v
theories/Traces.v
theories/Clock.v
theories/PropClocks.v
theories/ImpBuffer.v
theories/SpecImporter.v
theories/ImpUri.v
theories/Importer.v
theories/ImpResource.v
theories/ImpWrap.v
theories/SpecWrap.v
theories/Wrapper.v
theories/PropImporter.v
theories/SpecDeriv.v
theories/Deriv.v
theories/DerivReal.v
theories/PropDeriv.v
theories/Flags.v
theories/SpecReset.v
theories/Reset.v
theories/PropReset.v
theories/SpecCross.v
theories/Cross.v
theories/CrossLoops.v
theories/CrossNum.v
theories/CrossFmus.v
theories/PropCross.v
theories/Safe.v
theories/SpecSafe.v
theories/SafeCalls.v
theories/SafeApi.v
theories/SafeFmus.v
theories/SafeAll.v
theories/PropSafe.v
theories/SpecMx.v
theories/Mx.v
theories/Mx2.v
theories/PropMx.v
theories/Preempt.v
theories/SpecPreempt.v
theories/Tasks.v
theories/PropPreempt.v
theories/Programs.v
theories/ProgramsClocks.v
theories/Programs2.v
theories/Progress.v
theories/SpecPrograms.v
theories/SpecPrograms2.v
theories/Runs.v
theories/RunsReal.v
theories/RunsMe.v
theories/RunsEarly.v
theories/RunsOther.v
theories/RunsClocks.v
theories/RunsTwo.v
theories/RunsTwoEnd.v
theories/RunsTwoMe.v
theories/SpecBall.v
theories/RunsBall.v
theories/BallB64.v
theories/RunsBallReal.v
theories/SpecEventMode.v
theories/RunsEventMode.v
theories/PropEventMode.v
theories/PropProgress.v
theories/PropPrograms.v
theories/PropPrograms2.v
theories/ProgramsFeed.v
theories/SpecFeed.v
theories/RunsFeed.v
theories/RunsFeed2.v
theories/RunsFeedMe.v
theories/RunsFeedReal.v
theories/PropFeed.v
theories/ImpPath.v
theories/SpecPath.v
theories/Paths.v
theories/PropPath.v
theories/SpecSettable.v
theories/Settable.v
theories/Settable2.v
theories/PropSettable.v
theories/ImpLife.v
theories/SpecLife.v
theories/Life.v
theories/Life2.v
theories/Life3.v
theories/PropLife.v
theories/Token.v
theories/PropToken.v
theories/SpecRest.v
theories/Rest.v
theories/PropRest.v
theories/SpecOrbit.v
theories/Orbit.v
theories/PropOrbit.v
theories/SpecLinear.v
theories/Linear.v
theories/PropLinear.v
theories/SpecMore.v
theories/RunsMore.v
theories/PropMore.v
theories/RunsRes.v
theories/RunsResMe.v
theories/PropPrograms3.v
theories/SpecOwn.v
theories/Own.v
theories/PropOwn.v
theories/CrossRes.v
theories/PropCross2.v
