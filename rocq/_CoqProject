-Q theories Verif
theories/MBase.v
theories/MPyStr.v
theories/LBase.v
theories/MHeaders.v
theories/SHeaders.v
theories/LHeaders.v
theories/MUtf8.v
theories/MBase64.v
theories/MPercent.v
theories/MJson.v
theories/LUtf8.v
theories/LBase64.v
theories/LPyStr.v
theories/LPercent.v
theories/SJson.v
theories/LJson.v
theories/PHeaders.v
theories/MView.v
theories/PView.v
theories/PText.v
theories/MWire.v
theories/MEnvelope.v
theories/SEnvelope.v
theories/LEnvelope.v
theories/PEnvelope.v
theories/MStatusPb.v
theories/LStatusPb.v
theories/LWire.v
theories/MTimeout.v
theories/STimeout.v
theories/LFloat.v
theories/LTimeout.v
theories/PTimeout.v
theories/MProtocol.v
theories/SProtocol.v
theories/MClient.v
theories/LProtocol.v
theories/PProtocol.v
theories/SClient.v
theories/LClient.v
theories/PClient.v
theories/MIter.v
theories/SIter.v
theories/LIter.v
theories/PIter.v
theories/MServer.v
theories/MAsgi.v
theories/MWsgi.v
theories/SServer.v
theories/LServer.v
theories/LStream.v
theories/LWsgi.v
theories/PResponse.v
theories/MDuplex.v
theories/SDuplex.v
theories/LDuplex.v
theories/PDuplex.v
theories/LCausal.v
theories/LCausalW.v
theories/LRequest.v
theories/PRequest.v
theories/SLink.v
theories/LLink.v
theories/LLink2.v
theories/LNet.v
theories/PLink.v
theories/LLink3.v
theories/PUnary.v
theories/MIntercept.v
theories/SIntercept.v
theories/LIntercept.v
theories/PIntercept.v
theories/MScope.v
theories/SScope.v
theories/LScope.v
theories/PScope.v
theories/MLifespan.v
theories/SLifespan.v
theories/PLifespan.v
theories/MTimer.v
theories/STimer.v
theories/PTimer.v
theories/MGen.v
theories/SGen.v
theories/PGen.v
theories/PBody.v
theories/MOtel.v
theories/SOtel.v
theories/POtel.v
theories/SParity.v
theories/LParity.v
theories/PParity.v
theories/PTwin.v
theories/PStub.v
theories/MDetail.v
theories/PDetail.v
theories/SStatus.v
theories/PStatus.v
theories/PAnswer.v
theories/SContext.v
theories/PContext.v
theories/MStop.v
theories/PStop.v
theories/MInstr.v
theories/PInstr.v
theories/MFile.v
theories/PFile.v
theories/PCache.v
theories/MTalk.v
theories/STalk.v
theories/LTalk.v
theories/PTalk.v
theories/PHold.v
theories/MSend.v
theories/PSend.v
theories/PCausal.v
theories/SDialogue.v
theories/LDialogue.v
theories/PDialogue.v
theories/SMedia.v
theories/LMedia.v
theories/PMedia.v
theories/MEndless.v
theories/SEndless.v
theories/LEndless.v
theories/PEndless.v
theories/MWrap.v
theories/SWrap.v
theories/LWrap.v
theories/PWrap.v
theories/MServe.v
theories/SServe.v
theories/LServe.v
theories/PServe.v
theories/SAccept.v
theories/PAccept.v
theories/SDialogueW.v
theories/LDialogueW.v
theories/PDialogueW.v
theories/MHeap.v
theories/SHeap.v
theories/LHeap.v
theories/PHeap.v
theories/SBlind.v
theories/PBlind.v
theories/SReply.v
theories/PReply.v
theories/SLine.v
theories/PLine.v
theories/SRefuse.v
theories/PRefuse.v
theories/SCut.v
theories/PCut.v
theories/SSame.v
theories/PSame.v
theories/MRetry.v
theories/SRetry.v
theories/PRetry.v
theories/MLook.v
theories/SLook.v
theories/LLook.v
theories/PLook.v
theories/SNewer.v
theories/LNewer.v
theories/PNewer.v
theories/SQuery.v
theories/LQuery.v
theories/PQuery.v
theories/SProxy.v
theories/LProxy.v
theories/PProxy.v
theories/SOnce.v
theories/LOnce.v
theories/POnce.v
theories/SLines.v
theories/LLines.v
theories/PLines.v
theories/SMixed.v
theories/LMixed.v
theories/PMixed.v
theories/SPieces.v
theories/LPieces.v
theories/PPieces.v
theories/PSurplus.v
