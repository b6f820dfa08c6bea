-Q theories Verif
theories/Base.v
theories/Util.v
theories/IntRep.v
theories/HuffmanTable.v
theories/Huffman.v
theories/StaticTable.v
theories/HeaderType.v
theories/DynTable.v
theories/HeaderEnc.v
theories/HeaderDec.v
theories/FrameHeader.v
theories/Frames.v
theories/FrameBuilder.v
theories/Ssl.v
theories/Client.v
theories/Arith.v
theories/IntRepProofs.v
theories/SpecBits.v
theories/SpecHuffman.v
theories/SpecInt.v
theories/IntSpecProofs.v
theories/UtilProofs.v
theories/BitsProofs.v
theories/HuffmanProofs.v
theories/HuffmanDecProofs.v
theories/PropHuffman.v
theories/SpecHpack.v
theories/DynTableProofs.v
theories/StaticProofs.v
theories/PropTable.v
theories/HeaderProofs.v
theories/HeaderProofs2.v
theories/PropHeader.v
theories/SpecFrame.v
theories/FrameProofs.v
theories/PropFrame.v
theories/BlockProofs.v
theories/PropBlock.v
theories/PropUtil.v
theories/PropInt.v
theories/PropSsl.v
theories/PropClient.v
theories/HistoryProofs.v
theories/PropHistory.v
theories/SpecUnique.v
theories/PropRequest.v
theories/Dump.v
theories/DumpProofs.v
theories/PropDump.v
theories/Connect.v
theories/PropConnect.v
theories/Threads.v
theories/PropThreads.v
theories/PropEntry.v
theories/PropPeer.v
theories/PropName.v
theories/PropSecret.v
theories/PropDuplex.v
theories/PropBound.v
theories/PropSize.v
theories/PropForward.v
theories/PropSession.v
theories/PropAmplify.v
theories/PropWire.v
theories/PropRetry.v
theories/PropModes.v
theories/PropSettings.v
theories/Conformance.v
theories/Sample.v
theories/PropSample.v
theories/PropTerm.v
theories/PropMore.v
theories/Access.v
theories/PropAccess.v
theories/PropAhead.v
theories/PropGeneral.v
theories/SpecExec.v
theories/SpecExecProofs.v
theories/PropAccept.v
theories/SpecValid.v
theories/PropValid.v
theories/PropThrow.v
theories/PropDefined.v
theories/PropDanger.v
theories/PropMade.v
theories/PropReceived.v
theories/PropCoding.v
theories/PropDuties.v
theories/Shared.v
theories/PropShared.v
theories/PropWork.v
theories/SpecText.v
theories/PropText.v
theories/TableRefs.v
theories/PropRefs.v
theories/PropParts.v
theories/PropGather.v
theories/PropRelay.v
theories/PropSingle.v
theories/PropReqBlock.v
theories/PropRelayExact.v
theories/PropReqHistory.v
theories/PropPartsExact.v
theories/PropPeerExact.v
theories/PropPeerHistory.v
theories/Memory.v
theories/PropMemory.v
theories/MemoryRequest.v
theories/PropMemoryRequest.v
theories/ConnectMemory.v
theories/PropConnectMemory.v
theories/SpecOrder.v
theories/Values.v
theories/PropValues.v
theories/PropOrder.v
theories/Messages.v
theories/PropMessages.v
theories/Report.v
theories/PropReport.v
theories/PropHttp.v
theories/Ostream.v
theories/PropOstream.v
theories/PropStreams.v
theories/PropFlow.v
theories/PropReadOne.v
theories/Cost.v
theories/PropCost.v
theories/CostSend.v
theories/PropCostSend.v
theories/Startup.v
theories/PropStartup.v
theories/Throwing.v
theories/PropThrowing.v
theories/PropLength.v
theories/PropShortest.v
theories/PropTogether.v
theories/PropNoTables.v
theories/PropUnindexed.v
theories/PropRefilled.v
theories/PropIgnored.v
theories/PropPassive.v
theories/PropRenamed.v
theories/PropCut.v
theories/PropTrace.v
theories/PropReordered.v
theories/PropFraming.v
