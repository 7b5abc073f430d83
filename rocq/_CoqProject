-Q theories Verif

theories/Base.v
theories/BaseProofs.v
theories/FrameControl.v
theories/Spec.v
theories/SpecFrame.v
theories/BitProofs.v
theories/FrameControlProofs.v
theories/PropFrameControl.v
theories/Addressing.v
theories/SpecAddressing.v
theories/AddressingProofs.v
theories/AddressingProofs2.v
theories/PropAddressing.v
theories/AddressText.v
theories/SpecAddressText.v
theories/AddressTextProofs.v
theories/PropAddressText.v
theories/AuxSec.v
theories/PropAuxSec.v
theories/Ie.v
theories/SpecIe.v
theories/IeProofs.v
theories/DescProofs.v
theories/PropIe.v
theories/IeContent.v
theories/ReprIe.v
theories/SpecIeContent.v
theories/IeContentProofs.v
theories/SlotframeProofs.v
theories/ReprIeProofs.v
theories/IesProofs.v
theories/PropIeContent.v
theories/Macro.v
theories/SpecMacro.v
theories/PropMacro.v
theories/Beacon.v
theories/PropBeacon.v
theories/PropBeaconFrame.v
theories/Frames.v
theories/SpecFrames.v
theories/FramesProofs.v
theories/PropFrames.v
theories/Fcs.v
theories/SpecFcs.v
theories/FcsProofs.v
theories/PropFcs.v
theories/Repr.v
theories/SpecRepr.v
theories/ReprProofs.v
theories/BuilderProofs.v
theories/SpecParse.v
theories/ParseProofs.v
theories/PropRepr.v
theories/Sync.v
theories/SpecSync.v
theories/SyncProofs.v
theories/PropSync.v
theories/Time.v
theories/PhyConfig.v
theories/PropMisc.v
theories/Csma.v
theories/SpecCsma.v
theories/CsmaProofs.v
theories/PropCsma.v
theories/Async.v
theories/SpecAsync.v
theories/AsyncProofs.v
theories/RadioFutures.v
theories/PropAsync.v
theories/CsmaTasks.v
theories/CsmaWorld.v
theories/TaskLogic.v
theories/SpecTasks.v
theories/TxAutomaton.v
theories/TxProofs.v
theories/RxAutomaton.v
theories/RxProofs.v
theories/CsmaGlobal.v
theories/TxLog.v
theories/RxLog.v
theories/TxFacts.v
theories/LockFacts.v
theories/HandOver.v
theories/TasksLive.v
theories/PropTasks.v
theories/TaskRuns.v
theories/Cat.v
theories/SpecCat.v
theories/CatProofs.v
theories/PropCat.v
theories/StarveRuns.v
theories/PropStarve.v
theories/Brief.v
theories/BriefTasks.v
theories/PollRuns.v
theories/SpecPoll.v
theories/PropPoll.v
theories/Build.v
theories/SpecBuild.v
theories/PropBuild.v
theories/SpecAir.v
theories/AirFacts.v
theories/AirCounts.v
theories/WakeProofs.v
theories/PropAir.v
theories/SpecAttend.v
theories/Attend.v
theories/AttendTasks.v
theories/Monitor.v
theories/RngFacts.v
theories/PromptFacts.v
theories/ListenFacts.v
theories/PropAttend.v
theories/PropPrepared.v
theories/SourceFacts.v
theories/PropSource.v
theories/Display.v
theories/SpecDisplay.v
theories/DisplayProofs.v
theories/PropDisplay.v
theories/CatText.v
theories/SpecCatText.v
theories/CatTextProofs.v
theories/PropCatText.v
theories/SpecExchange.v
theories/ExchangeProofs.v
theories/PropExchange.v
theories/Reentrant.v
theories/SpecReentrant.v
theories/PropReentrant.v
theories/SpecDelivery.v
theories/PropDelivery.v
theories/SpecLink.v
theories/LinkFacts.v
theories/LinkRuns.v
theories/PropLink.v
theories/SpecSetters.v
theories/PropSetters.v
theories/SpecForward.v
theories/PropForward.v
theories/SpecEmit.v
theories/PropEmit.v
theories/SpecRewrite.v
theories/PropRewrite.v
theories/RepoTests.v
theories/RepoTestsMac.v
theories/RepoTestsSync.v
theories/MutexValue.v
theories/SpecMutexValue.v
theories/PropMutexValue.v
theories/PropEack.v
theories/PropCatAck.v
theories/PropEmitSec.v
