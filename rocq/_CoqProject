-Q theories Verif
theories/Base.v
theories/Types.v
theories/Encode.v
theories/Decode.v
theories/BaseProofs.v
theories/Spec.v
theories/EncodeProofs.v
theories/Roundtrip.v
theories/VariantRoundtrip.v
theories/DecodeProofs.v
theories/VariantDecode.v
theories/VariantDecode2.v
theories/Arrays.v
theories/ArrayProofs.v
theories/PanicProofs.v
theories/ValueTheorems.v
theories/PropertiesValue.v
theories/Codec.v
theories/Protocol.v
theories/SpecProtocol.v
theories/CodecProofs.v
theories/EnumProofs.v
theories/CompositeProofs.v
theories/ProtocolGood.v
theories/Message.v
theories/Framing.v
theories/SpecFraming.v
theories/MessageProofs.v
theories/MessageOps.v
theories/FrameProofs.v
theories/StreamProofs.v
theories/ProtocolTheorems.v
theories/PropertiesProtocol.v
theories/Engine.v
theories/State.v
theories/Session.v
theories/SessionStep.v
theories/SessionFrame.v
theories/EngineProofs.v
theories/Rel.v
theories/SessionRel.v
theories/SpecSession.v
theories/SendProofs.v
theories/SendTheorems.v
theories/PollProofs.v
theories/TagProofs.v
theories/FitProofs.v
theories/CreditProofs.v
theories/WindowProofs.v
theories/Scenario.v
theories/LinkProofs.v
theories/LinkRel.v
theories/SpecReceive.v
theories/RecvProofs.v
theories/RecvSteps.v
theories/RecvTheorems.v
theories/RecvRun.v
theories/WakeProofs.v
theories/PropertiesSending.v
theories/PropertiesReceiving.v
theories/Hold.v
theories/HoldRel.v
theories/HoldProofs.v
theories/One.v
theories/OneRel.v
theories/OneProofs.v
theories/FutureProofs.v
theories/Keys.v
theories/KeysRel.v
theories/Ent.v
theories/EntRel.v
theories/SpecRelease.v
theories/ReleaseProofs.v
theories/ReleaseTheorems.v
theories/SpecSettle.v
theories/SettleProofs.v
theories/SettleTheorems.v
theories/PropertiesRelease.v
theories/SpecDelivery.v
theories/Disp.v
theories/DispRel.v
theories/Trk.v
theories/TrkRel.v
theories/DispTheorems.v
theories/PropertiesSettle.v
theories/Claim.v
theories/ClaimRel.v
theories/SpecHandles.v
theories/HandleProofs.v
theories/HandleTheorems.v
theories/Echo.v
theories/EchoRel.v
theories/EchoTheorems.v
theories/PropertiesHandles.v
theories/Connection.v
theories/Wire.v
theories/WireRel.v
theories/ConnProofs.v
theories/ConnInv.v
theories/SpecConnection.v
theories/ConnTheorems.v
theories/ConnMoves.v
theories/SpecClose.v
theories/ConnClose.v
theories/ConnFutures.v
theories/PropertiesConnection.v
theories/Handshake.v
theories/SpecHandshake.v
theories/HandshakeProofs.v
theories/HandshakeEnds.v
theories/PropertiesHandshake.v
theories/KeepAlive.v
theories/SpecKeepAlive.v
theories/KeepAliveProofs.v
theories/PropertiesKeepAlive.v
theories/Control.v
theories/SpecControl.v
theories/ControlProofs.v
theories/PropertiesControl.v
theories/Router.v
theories/SpecRouter.v
theories/RouterProofs.v
theories/PropertiesRouter.v
theories/TwoPeers.v
theories/SpecTwoPeers.v
theories/TwoPeersProofs.v
theories/TwoPeersLink.v
theories/PropertiesTwoPeers.v
theories/SpecEndToEnd.v
theories/EndToEndProofs.v
theories/PropertiesEndToEnd.v
theories/Ready.v
theories/ReadyRel.v
theories/Owned.v
theories/OwnedRel.v
theories/SenderReady.v
theories/SpecReady.v
theories/ReadyProofs.v
theories/PropertiesReady.v
theories/MessageRead.v
theories/SpecMessageRead.v
theories/MessageReadProofs.v
theories/PropertiesMessageRead.v
theories/SpecPanic.v
theories/SessionPanicProofs.v
theories/PropertiesPanic.v
theories/SpecAttach.v
theories/Reserve.v
theories/ReserveRel.v
theories/AttachProofs.v
theories/PropertiesAttach.v
theories/OwnedRcv.v
theories/OwnedRcvRel.v
theories/Lookup.v
theories/SpecLookup.v
theories/LookupProofs.v
theories/PropertiesLookup.v
theories/Builders.v
theories/SpecBuilders.v
theories/BuilderProofs.v
theories/PropertiesBuilders.v
theories/ErrorProofs.v
theories/PropertiesErrors.v
theories/SpecAgree.v
theories/FlowState.v
theories/FlowStateRel.v
theories/FlowTheorems.v
theories/BeginProofs.v
theories/PropertiesAgree.v
theories/SpecEnds.v
theories/EndsProofs.v
theories/PropertiesEnds.v
theories/Records.v
theories/SpecRecords.v
theories/RecordProofs.v
theories/PropertiesRecords.v
theories/Limit.v
theories/LimitRel.v
theories/SpecLimit.v
theories/LimitProofs.v
theories/PropertiesLimit.v
theories/SpecRefuse.v
theories/RefuseProofs.v
theories/PropertiesRefuse.v
theories/Gave.v
theories/GaveRel.v
theories/Outcome.v
theories/SpecOutcome.v
theories/OutcomeProofs.v
theories/PropertiesOutcome.v
theories/SpecMark.v
theories/MarkProofs.v
theories/Load.v
theories/LoadProofs.v
theories/SpecLoad.v
theories/PropertiesLoad.v
theories/SpecTurn.v
theories/Turn.v
theories/TurnRel.v
theories/TurnProofs.v
theories/TurnTheorems.v
theories/PropertiesTurn.v
theories/SpecMany.v
theories/Many.v
theories/ManyRel.v
theories/ManyProofs.v
theories/PropertiesMany.v
theories/SpecLegal.v
theories/Legal.v
theories/PropertiesLegal.v
theories/SpecOrder.v
theories/Order.v
theories/OrderRel.v
theories/OrderProofs.v
theories/OrderFifo.v
theories/PropertiesOrder.v
theories/Window.v
theories/WindowRel.v
theories/SpecProgress.v
theories/ProgressProofs.v
theories/Starve.v
theories/PropertiesProgress.v
theories/Same.v
theories/SameProofs.v
theories/SpecCancel.v
theories/CancelProofs.v
theories/PropertiesCancel.v
theories/SpecApart.v
theories/Apart.v
theories/ApartRel.v
theories/ApartProofs.v
theories/Asleep.v
theories/AsleepProofs.v
theories/AsleepTheorems.v
theories/PropertiesApart.v
theories/Here.v
theories/HereRel.v
theories/HereProofs.v
theories/PropertiesHere.v
theories/SpecViolation.v
theories/PropertiesViolation.v
theories/SpecTold.v
theories/Told.v
theories/ToldRel.v
theories/ToldProofs.v
theories/PropertiesTold.v
