-Q theories Verif
theories/Base.v
theories/Arrays.v
theories/Spec.v
theories/ArraysFacts.v
theories/PropArrays.v
theories/Profile.v
theories/ProfileFacts.v
theories/PropProfile.v
theories/SliceHeap.v
theories/SpecSlices.v
theories/SliceHeapFacts.v
theories/PropSlices.v
theories/ListRace.v
theories/ListRaceFacts.v
theories/PropListing.v
theories/Similarity.v
theories/SimilarityFacts.v
theories/PropSimilarity.v
theories/GoIO.v
theories/FileBuffer.v
theories/SpecFile.v
theories/GoIOFacts.v
theories/FileBufferFacts.v
theories/PropIO.v
theories/Lock.v
theories/Delta.v
theories/CodecFacts.v
theories/SpecDelta.v
theories/SpecLock.v
theories/LockFacts.v
theories/DeltaFacts.v
theories/DeltaRecoverFacts.v
theories/PropDelta.v
theories/DeltaStoreFacts.v
theories/SpecCrash.v
theories/DeltaSession.v
theories/DeltaHistFacts.v
theories/DeltaCrashFacts.v
theories/DeltaRecCrashFacts.v
theories/PropDeltaStore.v
theories/PropDeltaCrash.v
theories/SpecLife.v
theories/DeltaLife.v
theories/DeltaLifeFacts.v
theories/PropDeltaLife.v
theories/Index.v
theories/SpecIndex.v
theories/IndexSession.v
theories/IndexFacts.v
theories/PropIndex.v
theories/PropDeltaFault.v
theories/DeltaFlakyFacts.v
theories/PropDeltaFlaky.v
theories/Recdb.v
theories/SpecRecdb.v
theories/RecdbSession.v
theories/RecdbFacts.v
theories/PropRecdb.v
theories/PropReaders.v
theories/Naming.v
theories/Config.v
theories/Json.v
theories/SpecJson.v
theories/JsonFacts.v
theories/Service.v
theories/Api.v
theories/SpecNames.v
theories/ServiceSession.v
theories/ServiceConc.v
theories/NamesFacts.v
theories/ServiceFacts.v
theories/ServiceConcFacts.v
theories/ApiFacts.v
theories/PropNames.v
theories/PropService.v
theories/PropHandlers.v
theories/PropFields.v
theories/PropMessages.v
theories/StartFiles.v
theories/StartFilesFacts.v
theories/PropOpenFiles.v
theories/PropIndexOf.v
theories/SpecJsonText.v
theories/JsonCodec.v
theories/ApiText.v
theories/JsonCodecFacts.v
theories/BodyFacts.v
theories/JsonStructFacts.v
theories/PropBodies.v
theories/PropRequests.v
theories/PropDocs.v
theories/AccuracyFacts.v
theories/PropAccuracy.v
theories/PropJson.v
theories/Worker.v
theories/SpecWorker.v
theories/WorkerFacts.v
theories/PropWorker.v
theories/WorkerTime.v
theories/SpecWorkerTime.v
theories/WorkerTimeFacts.v
theories/PropWorkerTime.v
theories/PropStorage.v
theories/LikeStart.v
theories/StartFacts.v
theories/FilesFacts.v
theories/PropStart.v
theories/PropFiles.v
theories/Settings.v
theories/PropSettings.v
theories/App.v
theories/AppFacts.v
theories/PropApp.v
theories/PropGraceful.v
theories/PropShutdown.v
theories/RobustFacts.v
theories/PropRobust.v
theories/RecoverFaultFacts.v
theories/PropRecoverFault.v
theories/RecoverRetryFacts.v
theories/PropRecoverRetry.v
theories/PropRecoverCrash.v
theories/RecdbMem.v
theories/RecdbMemFacts.v
theories/PropRecdbMem.v
theories/DeltaShare.v
theories/DeltaShareFacts.v
theories/PropDeltaShare.v
theories/ClosedSession.v
theories/ClosedFacts.v
theories/PropClosed.v
theories/ArraysCost.v
theories/ArraysCostFacts.v
theories/PropArraysCost.v
theories/SpecPower.v
theories/PowerFacts.v
theories/PropPower.v
theories/MonotoneFacts.v
theories/PropMonotone.v
theories/FileBufferMem.v
theories/SpecBufferMem.v
theories/FileBufferMemFacts.v
theories/PropBufferMem.v
theories/DeltaWideFacts.v
theories/PropDeltaMany.v
theories/IndexWideFacts.v
theories/PropIndexMany.v
theories/ArraysFloat.v
theories/ArraysFloatFacts.v
theories/PropArraysFloat.v
theories/DeltaPrint.v
theories/DeltaPrintFacts.v
theories/PropDeltaPrint.v
theories/DeltaRace.v
theories/DeltaRaceFacts.v
theories/IndexRace.v
theories/IndexRaceFacts.v
theories/PropRace.v
theories/PropTwice.v
theories/PropIndexPower.v
theories/Torn.v
theories/PropTorn.v
theories/TriangleFacts.v
theories/PropTriangle.v
theories/FaultyFacts.v
theories/IndexFaultFacts.v
theories/PropIndexFault.v
theories/DeltaHonestFacts.v
theories/PropDeltaHonest.v
theories/PropRename.v
theories/PropConversation.v
theories/FlakyReadFacts.v
theories/RecdbFaultFacts.v
theories/PropRecdbFault.v
theories/OpenFaultFacts.v
theories/PropOpenFault.v
theories/PropDeltaLog.v
theories/PropIndexErase.v
theories/PropIndexRetry.v
theories/DeltaRetryFacts.v
theories/PropDeltaRetry.v
theories/PropPowerRecover.v
theories/SimilarityCost.v
theories/PropSimilarityCost.v
theories/DeltaMem.v
theories/DeltaMemFacts.v
theories/PropDeltaMem.v
theories/PropExtremes.v
theories/DeltaForeignFacts.v
theories/PropDeltaForeign.v
theories/AcceptFacts.v
theories/PropAccept.v
theories/Addr.v
theories/AddrFacts.v
theories/PropAddr.v
theories/CallsFacts.v
theories/PropCalls.v
theories/SaveConc.v
theories/SaveConcFacts.v
theories/PropSaveConc.v
theories/RecdbCrashFacts.v
theories/PropRecdbCrash.v
theories/RecdbRetryFacts.v
theories/PropRecdbRetry.v
theories/RecdbPowerFacts.v
theories/PropRecdbPower.v
theories/RecdbGuardFacts.v
theories/PropRecdbGuard.v
theories/RecdbShare.v
theories/RecdbShareFacts.v
theories/PropRecdbShare.v
