-Q theories Verif
theories/Base.v
theories/Codec.v
theories/Types.v
theories/Messages.v
theories/Frame.v
theories/Noise.v
theories/Crypto.v
theories/Catalog.v
theories/SpecWire.v
theories/SpecTypes.v
theories/SpecNoise.v
theories/SpecSession.v
theories/SpecReply.v
theories/BaseFacts.v
theories/CryptoFacts.v
theories/X25519Facts.v
theories/NoiseFacts.v
theories/HandshakeProofs.v
theories/NxProofs.v
theories/SessionProofs.v
theories/NetProofs.v
theories/RecvProofs.v
theories/NoiseClaims.v
theories/FailureProofs.v
theories/NoiseSamples.v
theories/SessionClaims.v
theories/CodecFacts.v
theories/Utf8Facts.v
theories/TypesFacts.v
theories/MessagesFacts.v
theories/FrameFacts.v
theories/CodecProofs.v
theories/MsgProofs.v
theories/Certs.v
theories/SpecCerts.v
theories/Network.v
theories/Apps.v
theories/SpecNetwork.v
theories/PeerProofs.v
theories/NetworkProofs.v
theories/AppProofs.v
theories/ReplyProofs.v
theories/Fuzz.v
theories/Base58Facts.v
theories/CertProofs.v
theories/Samples.v
theories/TypesProofs.v
theories/WriterProofs.v
theories/FrameProofs.v
theories/FuzzProofs.v
theories/NumberTheory.v
theories/GroupOrder.v
theories/Edwards.v
theories/Field25519.v
theories/LadderProofs.v
theories/Ed25519.v
theories/SpecEd.v
theories/EdCurve.v
theories/KeyProofs.v
theories/EdProofs.v
theories/FiniteGroup.v
theories/Squares.v
theories/CurveOrder.v
theories/TwistProofs.v
theories/ZeroSecret.v
theories/EdExact.v
theories/RealSamples.v
theories/RealFlow.v
theories/Keys.v
theories/SpecKeys.v
theories/EraseProofs.v
theories/SpecBinding.v
theories/BindingProofs.v
theories/SpecDecode.v
theories/DecodeProofs.v
theories/Display.v
theories/SpecPool.v
theories/PoolProofs.v
theories/CutProofs.v
theories/SpecRetry.v
theories/RetryProofs.v
theories/PropNoise.v
theories/PropSession.v
theories/PropTypes.v
theories/SpecMiner.v
theories/MinerProofs.v
theories/SpecTransport.v
theories/TransportProofs.v
theories/SpecForgery.v
theories/PolyBound.v
theories/ForgeryProofs.v
theories/SpecAnswer.v
theories/AnswerProofs.v
theories/SpecTexts.v
theories/TextProofs.v
theories/SpecMix.v
theories/MixProofs.v
theories/SpecSetup.v
theories/PartialProofs.v
theories/SpecActive.v
theories/ActiveProofs.v
theories/SpecLive.v
theories/LiveProofs.v
theories/Compare.v
theories/CompareProofs.v
theories/RekeyProofs.v
theories/SpecStory.v
theories/StoryProofs.v
theories/SpecAltered.v
theories/AlteredProofs.v
theories/SpecSig.v
theories/SigProofs.v
theories/SpecScalar.v
theories/ScalarProofs.v
theories/SpecTwin.v
theories/TwinProofs.v
theories/Reasons.v
theories/SpecReason.v
theories/ReasonProofs.v
theories/Macro.v
theories/SpecMacro.v
theories/MacroProofs.v
theories/SpecPieces.v
theories/PieceProofs.v
theories/Nest.v
theories/SpecNest.v
theories/NestProofs.v
theories/SpecHistory.v
theories/HistoryProofs.v
theories/SpecLockstep.v
theories/LockstepProofs.v
theories/SpecEnd.v
theories/EndProofs.v
theories/SpecReuse.v
theories/ReuseProofs.v
theories/SpecTalk.v
theories/TalkProofs.v
theories/PropCodec.v
theories/PropFrame.v
theories/PropMessages.v
theories/PropCerts.v
theories/PropNetwork.v
theories/PropCrypto.v
theories/PropKeys.v
theories/PropEd.v
theories/PropFuzz.v
theories/PropBinding.v
theories/PropDecode.v
theories/PropRetry.v
theories/PropMiner.v
theories/PropTransport.v
theories/PropForgery.v
theories/RepoTests.v
theories/PropAnswer.v
theories/PropTexts.v
theories/PropMix.v
theories/PropActive.v
theories/PropLive.v
theories/PropCompare.v
theories/PropStory.v
theories/PropAltered.v
theories/PropTalk.v
theories/PropSig.v
theories/PropScalar.v
theories/PropTwin.v
theories/PropReason.v
theories/PropMacro.v
theories/PropPieces.v
theories/PropNest.v
theories/PropHistory.v
theories/PropLockstep.v
theories/SpecPass.v
theories/PassProofs.v
theories/PropPass.v
theories/Generated.v
theories/SpecGenerated.v
theories/GeneratedProofs.v
theories/PropGenerated.v
theories/Heap.v
theories/SpecHeap.v
theories/HeapProofs.v
theories/PropHeap.v
theories/FamilyProofs.v
theories/PropFamily.v
theories/Word.v
theories/SpecWord.v
theories/WordProofs.v
theories/PropWord.v
theories/SpecPanic.v
theories/PanicProofs.v
theories/PropPanic.v
theories/Counter.v
theories/SpecCounter.v
theories/CounterProofs.v
theories/PropCounter.v
theories/PropEnd.v
theories/PropReuse.v
theories/Index.v
theories/SpecIndex.v
theories/IndexProofs.v
theories/PropIndex.v
theories/Sum.v
theories/SpecSum.v
theories/SumProofs.v
theories/PropSum.v
theories/SpecSize.v
theories/SizeProofs.v
theories/PropSize.v
theories/Locals.v
theories/SpecLocals.v
theories/LocalsProofs.v
theories/PropLocals.v
theories/Channels.v
theories/SpecChannels.v
theories/ChannelProofs.v
theories/PropChannels.v
theories/Mains.v
theories/SpecMains.v
theories/MainProofs.v
theories/PropMains.v
theories/NoiseMainProofs.v
theories/PropNoiseMain.v
theories/Cuts.v
theories/SpecCuts.v
theories/CutRunProofs.v
theories/PropCuts.v
theories/DebugTexts.v
theories/SpecDebugTexts.v
theories/DebugTextProofs.v
theories/PropDebugTexts.v
theories/ErrorDebug.v
theories/SpecErrorDebug.v
theories/ErrorDebugProofs.v
theories/PropErrorDebug.v
theories/NoiseCuts.v
theories/SpecNoiseCuts.v
theories/NoiseCutProofs.v
theories/NoiseCutClaims.v
theories/PropNoiseCuts.v
