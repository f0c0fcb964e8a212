-Q theories Verif

theories/Base.v
theories/Serde.v
theories/Wire.v
theories/CodecLib.v
theories/WireWF.v
theories/CodecTac.v
theories/WireCodecs.v
theories/TreeCodec.v
theories/CodecPanics.v
theories/SpecCodec.v
theories/Examples.v
theories/CodecFacts.v
theories/PropCodec.v
theories/TreeMath.v
theories/SpecTree.v
theories/TreeMathProofs.v
theories/PropTreeMath.v
theories/Crypto.v
theories/LeafNode.v
theories/RatchetTree.v
theories/SpecRatchet.v
theories/TreeOps.v
theories/TreePaths.v
theories/Merge.v
theories/TreeInv.v
theories/TreeMore.v
theories/ExProvider.v
theories/TreeFacts.v
theories/LeafFacts.v
theories/TreeHash.v
theories/Verified.v
theories/PropVerified.v
theories/PropTree.v
theories/PropLeaf.v
theories/SecretTree.v
theories/KeySchedule.v
theories/SpecSecrets.v
theories/SecretFacts.v
theories/PropSecret.v
theories/KeyFacts.v
theories/PropKeySchedule.v
theories/Messages.v
theories/SpecMessages.v
theories/MessageFacts.v
theories/PropMessages.v
theories/Proposals.v
theories/SpecProposals.v
theories/ProposalFacts.v
theories/PropProposals.v
theories/KeyPackage.v
theories/Group.v
theories/SpecKeys.v
theories/KeyStoreFacts.v
theories/ExKeys.v
theories/PropKeys.v
theories/SpecWelcome.v
theories/WelcomeFacts.v
theories/PropWelcome.v
theories/Provider.v
theories/SpecProvider.v
theories/ProviderFacts.v
theories/PropProvider.v
theories/Build.v
theories/SpecBuild.v
theories/BuildFacts.v
theories/PropBuild.v
theories/SpecApply.v
theories/ApplyFacts.v
theories/PropApply.v
theories/SpecHashes.v
theories/HashFacts.v
theories/PropHashes.v
theories/BindFacts.v
theories/SpecMembers.v
theories/MemberFacts.v
theories/PropMembers.v
theories/SpecJoin.v
theories/JoinFacts.v
theories/ReplicaFacts.v
theories/PropJoin.v
theories/SpecTraffic.v
theories/TrafficFacts.v
theories/PropTraffic.v
theories/SpecLayout.v
theories/LayoutFacts.v
theories/PropLayout.v
theories/SpecAgree.v
theories/AgreeFacts.v
theories/PropAgree.v
theories/SpecCalm.v
theories/CalmFacts.v
theories/CalmTree.v
theories/PropCalm.v
theories/SpecKnow.v
theories/KnowFacts.v
theories/PropKnow.v
theories/CredentialFacts.v
theories/PropCredential.v
theories/SpecForward.v
theories/ForwardFacts.v
theories/PropForward.v
theories/Profile.v
theories/ProfileFacts.v
theories/SpecProfile.v
theories/ReleaseFacts.v
theories/PropProfile.v
theories/SpecAuth.v
theories/AuthFacts.v
theories/PropAuth.v
theories/SpecInterop.v
theories/InteropFacts.v
theories/PropInterop.v
theories/Threads.v
theories/SpecThreads.v
theories/ThreadFacts.v
theories/PropThreads.v
theories/Rand.v
theories/SpecRand.v
theories/RandFacts.v
theories/PropRand.v
theories/SpecSize.v
theories/SizeFacts.v
theories/PropSize.v
theories/Passive.v
theories/SpecPassive.v
theories/PassiveFacts.v
theories/ExPassive.v
theories/PropPassive.v
theories/ReceivedFacts.v
theories/PropReceived.v
theories/PassiveCommit.v
theories/SpecCommit.v
theories/CommitFacts.v
theories/ExCommit.v
theories/PropCommit.v
theories/SpecStays.v
theories/StaysFacts.v
theories/StaysCommit.v
theories/ExStays.v
theories/PropStays.v
theories/PassivePrivate.v
theories/SpecPrivate.v
theories/PrivateFacts.v
theories/ExPrivate.v
theories/PropPrivate.v
theories/SpecLocked.v
theories/LockedFacts.v
theories/PropLocked.v
theories/SpecState.v
theories/StateFacts.v
theories/PropState.v
theories/MergeFail.v
theories/PropMergeFail.v
theories/HealFacts.v
theories/PropHeal.v
theories/ApplyExact.v
theories/SpecInvite.v
theories/InviteFacts.v
theories/PropInvite.v
theories/SpecPsk.v
theories/PskFacts.v
theories/PropPsk.v
theories/SpecCost.v
theories/CostFacts.v
theories/PropCost.v
theories/SpecUse.v
theories/UseFacts.v
theories/PropUse.v
theories/SpecCrash.v
theories/CrashFacts.v
theories/PropCrash.v
theories/SpecStream.v
theories/StreamFacts.v
theories/PropStream.v
theories/SpecScan.v
theories/ScanFacts.v
theories/Primitives.v
theories/PrimFacts.v
theories/VectorChecks.v
theories/VectorsMath.v
theories/VectorsKeys.v
theories/VectorsMessages.v
theories/SpecDigest.v
theories/DigestFacts.v
theories/PropDigest.v
theories/SpecFork.v
theories/ForkFacts.v
theories/ExFork.v
theories/PropFork.v
theories/SpecWork.v
theories/WorkFacts.v
theories/PropWork.v
theories/SpecUnknown.v
theories/UnknownFacts.v
theories/PropUnknown.v
theories/OrderFacts.v
theories/PropOrder.v
theories/SpecDecode.v
theories/DecodeFacts.v
theories/PropDecode.v
theories/SpecSealed.v
theories/SealedFacts.v
theories/PropSealed.v
theories/SpecTiming.v
theories/TimingFacts.v
theories/PropTiming.v
theories/SpecEncode.v
theories/EncodeFacts.v
theories/PropEncode.v
theories/Printing.v
theories/SpecPrinting.v
theories/PrintingFacts.v
theories/PropPrinting.v
theories/Buffers.v
theories/SpecBuffers.v
theories/BufferFacts.v
theories/PropBuffers.v
theories/SpecDepth.v
theories/DepthFacts.v
theories/PropDepth.v
theories/SpecFaults.v
theories/FaultFacts.v
theories/PropFaults.v
theories/SpecReasons.v
theories/ReasonFacts.v
theories/ReasonMore.v
theories/ReasonOrder.v
theories/PropReasons.v
theories/Texts.v
theories/SpecTexts.v
theories/TextFacts.v
theories/PropTexts.v
theories/SpecClock.v
theories/ClockFacts.v
theories/PropClock.v
theories/SpecListing.v
theories/ListingFacts.v
theories/PropListing.v
theories/SpecRoster.v
theories/RosterFacts.v
theories/PropRoster.v
theories/SpecTight.v
theories/TightFacts.v
theories/PropTight.v
theories/SpecRepeat.v
theories/RepeatFacts.v
theories/PropRepeat.v
theories/LookupFacts.v
theories/PropLookup.v
theories/PanicBuildFacts.v
theories/PropPanicBuild.v
theories/SpecTreeCrash.v
theories/TreeCrashFacts.v
theories/PropTreeCrash.v
theories/ReceiveCrashFacts.v
theories/PropReceiveCrash.v
theories/CommuteFacts.v
theories/PropCommute.v
theories/SpecAble.v
theories/AbleFacts.v
theories/AbleMore.v
theories/PropAble.v
theories/SpecSendable.v
theories/SendableFacts.v
theories/BundledSend.v
theories/PropSendable.v
theories/SpecStuck.v
theories/StuckFacts.v
theories/PropStuck.v
theories/SpecBuildable.v
theories/BuildableFacts.v
theories/PropBuildable.v
theories/SpecHeard.v
theories/HeardFacts.v
theories/PropHeard.v
theories/SpecInvitable.v
theories/InvitableFacts.v
theories/HostBundled.v
theories/GrownFacts.v
theories/PropInvitable.v
theories/SpecChange.v
theories/ChangeFacts.v
theories/PropChange.v
theories/FullFacts.v
theories/SpecFull.v
theories/FullAdd.v
theories/PropFull.v
