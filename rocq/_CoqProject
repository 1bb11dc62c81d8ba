-Q theories Verif
theories/Base.v
theories/Bits.v
theories/Packet.v
theories/PacketSpec.v
theories/PacketProofs.v
theories/PacketBytes.v
theories/PropsPacket.v
theories/Messages.v
theories/Sysex.v
theories/ByteStream.v
theories/StreamSpec.v
theories/StreamProofs.v
theories/StreamLemmas.v
theories/StreamCalls.v
theories/StreamBytes.v
theories/PropsStream.v
theories/Collector.v
theories/CollectSpec.v
theories/CollectProofs.v
theories/CollectLemmas.v
theories/SendProofs.v
theories/CollectCalls.v
theories/PropsCollect.v
theories/Types.v
theories/TypesSpec.v
theories/TypesProofs.v
theories/PropsTypes.v
theories/ChannelVoice.v
theories/VoiceSpec.v
theories/VoiceChecks.v
theories/VoiceProofs.v
theories/VoiceTranslate.v
theories/VoiceGetters.v
theories/PropsVoice.v
theories/Utility.v
theories/SystemProofs.v
theories/PropsSystem.v
theories/Jitter.v
theories/JitterSpec.v
theories/JitterProofs.v
theories/PropsJitter.v
theories/UniversalSysex.v
theories/SysexSpec.v
theories/SysexProofs.v
theories/SysexReading.v
theories/PropsSysex.v
theories/CapInq.v
theories/PropEx.v
theories/CapSpec.v
theories/CapProofs.v
theories/CapWire.v
theories/CapCalls.v
theories/CapMake.v
theories/CapRead.v
theories/PropsCap.v
theories/JsonSpec.v
theories/JsonProofs.v
theories/PropsJson.v
theories/Endpoint.v
theories/EndpointSpec.v
theories/EndpointProofs.v
theories/PropsEndpoint.v
theories/Flex.v
theories/FlexSpec.v
theories/FlexProofs.v
theories/PropsFlex.v
theories/TextIO.v
theories/TextSpec.v
theories/TextProofs.v
theories/PropsText.v
theories/Floats.v
theories/FloatSpec.v
theories/FloatLemmas.v
theories/FloatProofs.v
theories/FloatPitch.v
theories/FloatBend.v
theories/FloatOrder.v
theories/PropsFloat.v
theories/DataPackets.v
theories/DataSpec.v
theories/DataProofs.v
theories/PropsData.v
theories/TestsStream.v
theories/TestsTypes.v
theories/TestsCollect.v
theories/TestsBase.v
theories/TestsCI.v
theories/TestsProfile.v
theories/TestsPropEx.v
theories/TestsUniversal.v
theories/TestsPacketBase.v
theories/TestsPacket.v
theories/TestsVoice.v
theories/TestsFlexStream.v
theories/TestsHand.v
theories/VoiceReturnSpec.v
theories/VoiceReturn.v
theories/PropsReturn.v
theories/SessionSpec.v
theories/SessionProofs.v
theories/PropsSession.v
theories/ManySpec.v
theories/ManyProofs.v
theories/PropsMany.v
theories/Reentrant.v
theories/ReentrantSpec.v
theories/ReentrantProofs.v
theories/ReentrantCollectSpec.v
theories/ReentrantCollectProofs.v
theories/PropsReentrant.v
theories/Throwing.v
theories/ThrowingSpec.v
theories/ThrowingProofs.v
theories/PropsThrowing.v
theories/QueryProofs.v
theories/PropsQuery.v
theories/BoundSpec.v
theories/BoundProofs.v
theories/PropsBound.v
theories/Memory.v
theories/MemorySpec.v
theories/MemoryProofs.v
theories/MemoryCount.v
theories/PropsMemory.v
theories/Docs.v
theories/DocsSpec.v
theories/DocsProofs.v
theories/PropsDocs.v
theories/CapReport.v
theories/CapReportProofs.v
theories/PropsReport.v
theories/JrClock.v
theories/JrClockSpec.v
theories/JrClockProofs.v
theories/PropsJrClock.v
theories/LimitSpec.v
theories/LimitProofs.v
theories/PropsLimit.v
theories/ReceiveSpec.v
theories/ReceiveProofs.v
theories/PropsReceive.v
theories/Manufacturer.v
theories/ManufacturerProofs.v
theories/PropsManufacturer.v
theories/BridgeSpec.v
theories/BridgeProofs.v
theories/PropsBridge.v
theories/UpscaleProofs.v
theories/PropsUpscale.v
theories/WireSpec.v
theories/WireProofs.v
theories/PropsWire.v
theories/GroupSpec.v
theories/GroupProofs.v
theories/PropsGroup.v
theories/EpochSpec.v
theories/EpochProofs.v
theories/PropsEpoch.v
theories/ChannelSpec.v
theories/ChannelProofs.v
theories/PropsChannel.v
theories/Receiver.v
theories/ReceiverSpec.v
theories/ReceiverProofs.v
theories/PropsReceiver.v
theories/Transfer.v
theories/TransferSpec.v
theories/TransferProofs.v
theories/PropsTransfer.v
theories/Browse.v
theories/BrowseSpec.v
theories/BrowseProofs.v
theories/PropsBrowse.v
theories/Lyrics.v
theories/LyricsSpec.v
theories/LyricsProofs.v
theories/PropsLyrics.v
theories/CiNet.v
theories/CiNetSpec.v
theories/CiNetProofs.v
theories/PropsCiNet.v
theories/Profiles.v
theories/ProfilesSpec.v
theories/ProfilesProofs.v
theories/PropsProfiles.v
theories/ReentrantAny.v
theories/ReentrantAnySpec.v
theories/ReentrantAnyProofs.v
theories/PropsReentrantAny.v
theories/Copies.v
theories/CopiesSpec.v
theories/CopiesProofs.v
theories/PropsCopies.v
theories/Views.v
theories/ViewsSpec.v
theories/ViewsProofs.v
theories/PropsViews.v
theories/Engine.v
theories/EngineSpec.v
theories/EngineProofs.v
theories/EngineBytesSpec.v
theories/EngineBytesProofs.v
theories/PropsEngine.v
theories/Snapshot.v
theories/SnapshotSpec.v
theories/SnapshotProofs.v
theories/PropsSnapshot.v
theories/Negotiate.v
theories/NegotiateSpec.v
theories/NegotiateProofs.v
theories/PropsNegotiate.v
theories/Merge.v
theories/MergeSpec.v
theories/MergeProofs.v
theories/PropsMerge.v
theories/Ports.v
theories/PortsSpec.v
theories/PortsProofs.v
theories/PropsPorts.v
theories/LossSpec.v
theories/LossProofs.v
theories/PropsLoss.v
theories/ResendProofs.v
theories/PropsResend.v
theories/Fit.v
theories/FitSpec.v
theories/FitProofs.v
theories/PropsFit.v
theories/Subscribe.v
theories/SubscribeSpec.v
theories/SubscribeProofs.v
theories/PropsSubscribe.v
theories/Atomic.v
theories/AtomicSpec.v
theories/AtomicProofs.v
theories/PropsAtomic.v
theories/Muids.v
theories/MuidsSpec.v
theories/MuidsProofs.v
theories/PropsMuids.v
theories/Directory.v
theories/DirectorySpec.v
theories/DirectoryProofs.v
theories/PropsDirectory.v
theories/LimitBox.v
theories/LimitBoxSpec.v
theories/LimitBoxProofs.v
theories/PropsLimitBox.v
theories/Translate.v
theories/TranslateSpec.v
theories/TranslateProofs.v
theories/TranslateBytes.v
theories/TranslateEngine.v
theories/PropsTranslate.v
theories/Follow.v
theories/FollowSpec.v
theories/FollowProofs.v
theories/PropsFollow.v
theories/Identify.v
theories/IdentifySpec.v
theories/IdentifyProofs.v
theories/PropsIdentify.v
theories/Growing.v
theories/GrowingSpec.v
theories/GrowingProofs.v
theories/PropsGrowing.v
theories/TimeCode.v
theories/TimeCodeSpec.v
theories/TimeCodeProofs.v
theories/PropsTimeCode.v
theories/CapGrow.v
theories/CapGrowSpec.v
theories/CapGrowProofs.v
theories/PropsCapGrow.v
