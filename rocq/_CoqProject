-Q theories Verif
theories/Py.v
theories/SliceTools.v
theories/Basics.v
theories/Storage.v
theories/Enumerate.v
theories/Sequence.v
theories/Spec.v
theories/SliceFacts.v
theories/IndexFacts.v
theories/ExtgcdFacts.v
theories/DioFacts.v
theories/ElimFacts.v
theories/MatrixFacts.v
theories/SolverFacts.v
theories/CloseFacts.v
theories/SolveFacts.v
theories/CompressFacts.v
theories/ReduceFacts.v
theories/Repr.v
theories/ReprFacts.v
theories/ViewFacts.v
theories/BuildFacts.v
theories/SparseFacts.v
theories/ConvFacts.v
theories/FromFacts.v
theories/DMFacts.v
theories/ReadFacts.v
theories/MapFacts.v
theories/ChainFacts.v
theories/ChainDM.v
theories/WriteFacts.v
theories/EffectFacts.v
theories/PureFacts.v
theories/AliasFacts.v
theories/PropLookup.v
theories/PropRead.v
theories/PropChain.v
theories/PropWrite.v
theories/PropFail.v
theories/EqFacts.v
theories/PropEq.v
theories/PropEdge.v
theories/PropIndex.v
theories/PropReach.v
theories/PropSlices.v
theories/PropSolver.v
theories/PropSolveExact.v
theories/PropBasics.v
theories/PropEnum.v
theories/PropEnum2.v
theories/RefineFacts.v
theories/PropOverlap.v
theories/Machine.v
theories/PropRefine.v
theories/PropFormat.v
theories/PropMore.v
theories/Version.v
theories/VersionFacts.v
theories/PropVersion.v
theories/PropText.v
theories/PropRagged.v
theories/PropRepr.v
theories/PropBuffer.v
theories/PropFull.v
theories/PropConstruct.v
theories/Versioneer.v
theories/PropDist.v
theories/PropStyle.v
theories/PropLen.v
theories/Setup.v
theories/PropSetup.v
theories/PropShow.v
theories/Build.v
theories/PropBuild.v
theories/PropImport.v
theories/Nested.v
theories/PropNested.v
theories/PropNestedSet.v
theories/PropDict.v
theories/Project.v
theories/PropConfig.v
theories/PropProject.v
theories/PropCopy.v
theories/PropExchange.v
theories/Values.v
theories/ValueFacts.v
theories/PropValues.v
theories/PropValueEq.v
theories/PropCrash.v
theories/PropResume.v
theories/PropInterp.v
theories/PropReport.v
theories/Threads.v
theories/ThreadFacts.v
theories/PropThreads.v
theories/PropRaces.v
theories/PropRepack.v
theories/PropOrder.v
theories/PropFlow.v
theories/PropApart.v
theories/PropSettle.v
theories/PropFreeze.v
theories/PropStage.v
theories/PropEmpty.v
theories/PropChars.v
theories/PropBounded.v
theories/PropHelpers.v
theories/PropLoop.v
theories/Install.v
theories/PropInstall.v
theories/PropCompare.v
theories/Work.v
theories/PropWork.v
theories/PropIntro.v
theories/PropSeq.v
theories/PropRank.v
theories/PropEnds.v
theories/Copies.v
theories/PropCopies.v
theories/Cuts.v
theories/PropCuts.v
theories/PropSnap.v
theories/Iterate.v
theories/PropMoment.v
theories/Flood.v
theories/PropFlood.v
theories/Turns.v
theories/PropTurns.v
theories/PropSwap.v
theories/Same.v
theories/PropSame.v
theories/Recopy.v
theories/PropRecopy.v
theories/Merge.v
theories/PropMerge.v
theories/PropZero.v
theories/PropAnytime.v
theories/CutsDM.v
theories/PropCutsDM.v
theories/PropTouch.v
theories/PropSetupCases.v
theories/PropThreadCases.v
theories/PropCases.v
theories/PropSeqCases.v
theories/PropVersionCases.v
theories/Conformance.v
theories/ConformanceSlices.v
theories/ConformanceDM.v
theories/ConformanceDoc.v
