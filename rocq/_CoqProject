-Q theories Verif
theories/Base.v
theories/Utils.v
theories/Frame.v
theories/CipherSuite.v
theories/Secrets.v
theories/Connection.v
theories/Packet.v
theories/TransportParams.v
theories/Spec.v
theories/SpecPacket.v
theories/Tactics.v
theories/UtilsFacts.v
theories/ParserFacts.v
theories/FrameFacts.v
theories/SecretsFacts.v
theories/HeaderFacts.v
theories/PropUtils.v
theories/PropFrame.v
theories/PacketFacts.v
theories/Histories.v
theories/ConnectionFacts.v
theories/PacketInv.v
theories/Sha256.v
theories/Aes128.v
theories/CryptoInst.v
theories/DecodeFacts.v
theories/PropHeader.v
theories/PropCrypto.v
theories/PropConn.v
theories/SendFacts.v
theories/PropPacket.v
theories/PropDecode.v
theories/SpecTransport.v
theories/PropTransport.v
theories/Printing.v
theories/PrintingFacts.v
theories/Routing.v
theories/Threads.v
theories/RoutingFacts.v
theories/SpecRouting.v
theories/RoutingSafe.v
theories/SoloFacts.v
theories/SampleRuns.v
theories/PropRouting.v
theories/PropAccept.v
theories/ProtectedInv.v
theories/PropWire.v
theories/PropProtected.v
theories/PropFrameSound.v
theories/LocalFacts.v
theories/PropThreads.v
theories/PropIntake.v
theories/BuildFacts.v
theories/PropBuilds.v
theories/PropCoalesce.v
theories/PropSizes.v
theories/Buffers.v
theories/PropBuffers.v
theories/Constructors.v
theories/PropBuilt.v
theories/RepoTests.v
theories/PropStable.v
theories/PropInjective.v
theories/PropSameWire.v
theories/PropAtomic.v
theories/PropMinimal.v
theories/PropAddressee.v
theories/PropResources.v
theories/PropSlice.v
theories/PropPnField.v
theories/PropSample.v
theories/PropAccessors.v
theories/PropComplete.v
theories/PropRouteWire.v
theories/PropTamper.v
theories/PropChange.v
theories/PropPrinting.v
theories/PropSend.v
theories/PropHold.v
theories/PropIds.v
theories/PropLinear.v
theories/PropLater.v
theories/PropTalk.v
theories/PropShort.v
theories/LogText.v
theories/LogTextFacts.v
theories/PropLogText.v
theories/Prettify.v
theories/PropPrettify.v
theories/PropLimits.v
theories/PropMixed.v
theories/PropTalkAll.v
theories/PropReads.v
theories/PropSecrecy.v
theories/PropRepairs.v
theories/PropIsolation.v
theories/PropErrors.v
theories/PropStart.v
theories/PropExact.v
theories/PropParams.v
theories/PropConnect.v
theories/PropAck.v
theories/PropKeys.v
theories/PropRepairsPn.v
theories/PropLogWords.v
theories/PropAnswers.v
theories/PropSources.v
theories/PropRepairsTotal.v
theories/PropRepairsExact.v
theories/PropRepairsFrames.v
theories/PropRepairsChecks.v
theories/PropStrict.v
theories/PropCut.v
theories/PropRetry.v
theories/PropLines.v
theories/PropAmount.v
theories/DebugText.v
theories/PropDebug.v
theories/PropVn.v
theories/PropUnsent.v
theories/PropZeroRtt.v
