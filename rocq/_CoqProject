-Q theories Verif
theories/Base.v
theories/Addresses.v
theories/Tunneling.v
theories/Apdu.v
theories/Emi.v
theories/Core.v
theories/DpTypes.v
theories/Transport.v
theories/Search.v
theories/Demo.v
theories/Wire.v
theories/Spec.v
theories/TraceSpec.v
theories/TraceSpec2.v
theories/SearchSpec.v
theories/DemoSpec.v
theories/SessionSpec.v
theories/MonitorSpec.v
theories/ReactSpec.v
theories/DibSpec.v
theories/LiveSpec.v
theories/CommandSpec.v
theories/PromptSpec.v
theories/CountSpec.v
theories/RescueSpec.v
theories/FifoSpec.v
theories/AnswerSpec.v
theories/DpOld.v
theories/OldSpec.v
theories/Messages.v
theories/MsgSpec.v
theories/MsgView.v
theories/Messages2.v
theories/MsgSpec2.v
theories/MsgView2.v
theories/AnswerSpec2.v
theories/BaseProofs.v
theories/CoreProofs.v
theories/DibProofs.v
theories/EmiProofs.v
theories/ResponseProofs.v
theories/AddrProofs.v
theories/DptProofs.v
theories/CodecMore.v
theories/MessageMore.v
theories/SearchProofs.v
theories/FloatProofs.v
theories/FloatMul.v
theories/FloatEncode.v
theories/FloatCode.v
theories/FloatSweep.v
theories/FloatDecode.v
theories/FloatRound.v
theories/FloatMore.v
theories/TransportBase.v
theories/TransportInv.v
theories/TransportConn.v
theories/TransportCalls.v
theories/TransportReturn.v
theories/TransportThm.v
theories/TransportThm2.v
theories/TransportThm3.v
theories/TransportBg.v
theories/TransportBgThm.v
theories/TransportBgThm2.v
theories/TransportBgThm3.v
theories/TransportBgThm4.v
theories/TransportNotify.v
theories/TransportMore.v
theories/TransportMore2.v
theories/TransportRuns.v
theories/TransportLost.v
theories/TransportLive.v
theories/TransportLive2.v
theories/TransportRecover.v
theories/TransportWire.v
theories/TransportOrder.v
theories/TransportReads.v
theories/TransportRuns2.v
theories/TypedSpec.v
theories/TypedProofs.v
theories/FloatScale.v
theories/ScaleProofs.v
theories/SearchMore.v
theories/DemoProofs.v
theories/DemoMain.v
theories/TransportStay.v
theories/TransportSession.v
theories/MonitorStream.v
theories/TransportReact.v
theories/DibExact.v
theories/RepoTests.v
theories/FloatBack.v
theories/CodecLength.v
theories/PartialMore.v
theories/TestProofs.v
theories/TransportFair.v
theories/TransportFair2.v
theories/TransportShift.v
theories/LiveRuns.v
theories/TransportFair3.v
theories/TransportFair4.v
theories/LiveRuns2.v
theories/CommandProofs.v
theories/TransportFair5.v
theories/TransportPrompt.v
theories/TransportPrompt2.v
theories/PromptRuns.v
theories/TransportCount.v
theories/TransportRescue.v
theories/TransportFifo.v
theories/FifoRuns.v
theories/TransportAnswer.v
theories/TransportOutage.v
theories/AnswerRuns.v
theories/SearchCrash.v
theories/OldFloat.v
theories/MessageProofs.v
theories/MessageProofs2.v
theories/TransportAnswer2.v
theories/PropsCodec.v
theories/PropsMessage.v
theories/PropsAddr.v
theories/PropsDpt.v
theories/PropsFloat.v
theories/PropsCalls.v
theories/PropsTask.v
theories/PropsMonitor.v
theories/PropsLive.v
theories/PropsSearch.v
theories/PropsTyped.v
theories/PropsBack.v
theories/PropsDemo.v
theories/PropsSession.v
theories/PropsStream.v
theories/PropsReact.v
theories/PropsBlocks.v
theories/PropsTests.v
theories/PropsFair.v
theories/PropsCommand.v
theories/PropsPrompt.v
theories/PropsCount.v
theories/PropsRescue.v
theories/PropsFifo.v
theories/PropsAnswer.v
theories/PropsOld.v
theories/PropsMsg.v
theories/PropsMsg2.v
theories/PropsAnswer2.v
theories/RestSpec.v
theories/RestProofs.v
theories/PropsRest.v
theories/Messages3.v
theories/CauseSpec.v
theories/CauseProofs.v
theories/PropsMsg3.v
theories/LiveRuns3.v
theories/AckSpec.v
theories/TransportAck.v
theories/PropsAck.v
theories/TransportFresh.v
theories/PropsFresh.v
theories/Connect.v
theories/TransportConnect.v
theories/PropsConnect.v
theories/OwnSpec.v
theories/TransportOwn.v
theories/PropsOwn.v
theories/TransportDrop.v
theories/PropsDrop.v
theories/TransportQuit.v
theories/PropsQuit.v
theories/TransportBeat.v
theories/PropsBeat.v
theories/PropsConnect2.v
theories/Assumptions.v
