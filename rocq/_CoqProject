-Q theories Verif
theories/Machine.v
theories/MUtils.v
theories/MLyra2.v
theories/MBmwGen.v
theories/MBmw.v
theories/MCubeGen.v
theories/MCube.v
theories/MChains.v
theories/SpecWord.v
theories/SpecBlake2b.v
theories/SpecBlake2bFull.v
theories/SpecLyra2.v
theories/Tests.v
theories/MachineFacts.v
theories/WordFacts.v
theories/Schedule.v
theories/Refine.v
theories/Refine2.v
theories/RefineInput.v
theories/RefineTop.v
theories/Termination.v
theories/Domain.v
theories/SpecCalls.v
theories/LyraFacts.v
theories/Padding.v
theories/MTrace.v
theories/SpecSchedule.v
theories/TraceFacts.v
theories/Coverage.v
theories/PLyra2Lemmas.v
theories/Wide32.v
theories/PLyra2.v
theories/PScheduleLemmas.v
theories/PSchedule.v
theories/PInput.v
theories/SpecSponge.v
theories/SpongeFacts.v
theories/PSponge.v
theories/SpecCube.v
theories/CubeFacts.v
theories/SpecBmw.v
theories/BmwFacts.v
theories/HashFacts.v
theories/PHashes.v
theories/SpecChains.v
theories/ChainFacts.v
theories/SpecBlake256.v
theories/SpecKeccak.v
theories/SpecSkein.v
theories/SpecGroestl.v
theories/ChainTests.v
theories/DigestFacts.v
theories/PChains.v
theories/Log.v
theories/Kept.v
theories/MAccess.v
theories/MKept.v
theories/SpecAccess.v
theories/AccessFacts.v
theories/KeptFacts.v
theories/PAccessLemmas.v
theories/PAccess.v
theories/SrcOps.v
theories/SrcUtils.v
theories/SrcLyra2.v
theories/SrcLyra2mod.v
theories/SrcCube.v
theories/SrcBmw.v
theories/SrcChains.v
theories/SrcFacts.v
theories/SrcLoops.v
theories/SrcTop.v
theories/SrcLyra2Log.v
theories/SrcLyra2modLog.v
theories/SrcLyra2Heap.v
theories/SrcLyra2modHeap.v
theories/SrcLogFacts.v
theories/SrcLogTop.v
theories/SrcHash.v
theories/SrcHash2.v
theories/SrcHash3.v
theories/PSrcLemmas.v
theories/PSrc.v
theories/PSrcLogLemmas.v
theories/PSrcLog.v
theories/FailFacts.v
theories/PFailCostLemmas.v
theories/PFailCost.v
theories/SrcChainsLog.v
theories/PChainCostLemmas.v
theories/PChainCost.v
theories/MPhases.v
theories/SpecPhases.v
theories/InjFacts.v
theories/PhaseFacts.v
theories/PPhasesLemmas.v
theories/WanderMerge.v
theories/PPhases.v
theories/MDigestState.v
theories/CubePerm.v
theories/PDigestState.v
theories/ConsensusFacts.v
theories/WrapFailure.v
theories/PConsensus.v
theories/SpecRowChoice.v
theories/RowCount.v
theories/RowCount2.v
theories/FirstRow.v
theories/PRowChoice.v
theories/Held.v
theories/MHeap.v
theories/SpecHeap.v
theories/HeapFacts.v
theories/PHeap.v
theories/BmwPerm.v
theories/BmwState.v
theories/PBmwState.v
theories/SpecCollision.v
theories/CollisionFacts.v
theories/PCollision.v
theories/VariantFacts.v
theories/PVariants.v
theories/KeyLengthFacts.v
theories/PKeyLength.v
theories/PermFacts.v
theories/SpecExtraction.v
theories/KeyCount.v
theories/PExtraction.v
theories/DigestBalance.v
theories/SpecSymmetry.v
theories/SymmetryFacts.v
theories/PSymmetry.v
theories/SpecSteps.v
theories/StepFacts.v
theories/PStepsLemmas.v
theories/PSteps.v
theories/Seen.v
theories/SrcLyra2Seen.v
theories/SrcLyra2modSeen.v
theories/SrcCubeSeen.v
theories/SrcBmwSeen.v
theories/SrcChainsSeen.v
theories/SpecSeen.v
theories/SeenFacts.v
theories/SeenLyra2.v
theories/SeenErase.v
theories/SeenHash.v
theories/PSeenLemmas.v
theories/PSeen.v
theories/SpecShape.v
theories/SeenUpto.v
theories/SeenShape.v
theories/PShapeLemmas.v
theories/PShape.v
theories/SeenEarly.v
theories/PTotalLemmas.v
theories/PTotal.v
theories/MRest.v
theories/SpecUnused.v
theories/UnusedFacts.v
theories/PUnused.v
theories/PassLength.v
theories/PPassLength.v
theories/BigRows.v
theories/CheckedRows.v
theories/ReleaseRows.v
theories/Capacity.v
theories/AnyKey.v
theories/PBigRows.v
theories/HeldFacts.v
theories/HeldTop.v
theories/HeldSafe.v
theories/HeldProps.v
theories/PHeapSrc.v
theories/SrcChainsHeap.v
theories/ChainHeap.v
theories/PChainHeap.v
