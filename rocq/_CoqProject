-Q theories Verif
theories/Base/Prelude.v
theories/Base/Bits.v
theories/Model/BitCodec.v
theories/Model/Types.v
theories/Model/Codec.v
theories/Spec/CodecSpec.v
theories/Proofs/BitCodecFacts.v
theories/Proofs/CodecFacts.v
theories/Proofs/DecodeFacts.v
theories/Proofs/WireFacts.v
theories/Proofs/TruncFacts.v
theories/Proofs/CutFacts.v
theories/Proofs/ClipFacts.v
theories/Proofs/CodecTop.v
theories/Properties/CodecProps.v
theories/Model/Prim.v
theories/Spec/PrimSpec.v
theories/Proofs/PrimFacts.v
theories/Properties/PrimProps.v
theories/Model/Crc.v
theories/Spec/CrcSpec.v
theories/Proofs/ShiftReg.v
theories/Proofs/CrcFacts.v
theories/Properties/CrcProps.v
theories/Model/MsgId.v
theories/Spec/MsgIdSpec.v
theories/Proofs/MsgIdFacts.v
theories/Model/Frames.v
theories/Model/TransferManager.v
theories/Spec/FrameSpec.v
theories/Proofs/FrameFacts.v
theories/Spec/ReassemblySpec.v
theories/Spec/SendingSpec.v
theories/Proofs/ReassemblyFacts.v
theories/Proofs/ManagerFacts.v
theories/Proofs/TransferTop.v
theories/Properties/FrameProps.v
theories/Properties/ManagerProps.v
theories/Model/Float.v
theories/Spec/FloatSpec.v
theories/Proofs/FloatFacts.v
theories/Proofs/FloatTop.v
theories/Proofs/FloatFields.v
theories/Proofs/FloatTies.v
theories/Properties/FloatProps.v
theories/Model/Sched.v
theories/Spec/SchedSpec.v
theories/Proofs/SchedFacts.v
theories/Proofs/SchedTop.v
theories/Proofs/SchedRaise.v
theories/Properties/SchedProps.v
theories/Model/Node.v
theories/Spec/NodeSpec.v
theories/Proofs/NodeFacts.v
theories/Proofs/RequestFacts.v
theories/Proofs/NodeRequests.v
theories/Proofs/NodeDispatch.v
theories/Proofs/NodeTop.v
theories/Proofs/NodeNet.v
theories/Properties/NodeProps.v
theories/Model/Allocator.v
theories/Spec/AllocatorSpec.v
theories/Proofs/AllocatorFacts.v
theories/Properties/AllocatorProps.v
theories/Model/Monitor.v
theories/Spec/MonitorSpec.v
theories/Proofs/MonitorFacts.v
theories/Properties/MonitorProps.v
theories/Model/Collector.v
theories/Spec/CollectorSpec.v
theories/Proofs/CollectorFacts.v
theories/Model/FileServer.v
theories/Spec/FileSpec.v
theories/Proofs/FileFacts.v
theories/Properties/CollectorProps.v
theories/Properties/FileProps.v
theories/Model/Serial.v
theories/Spec/SerialSpec.v
theories/Proofs/SerialFacts.v
theories/Properties/SerialProps.v
theories/Base/Pack.v
theories/Model/CanFrame.v
theories/Model/FileLog.v
theories/Spec/LogSpec.v
theories/Proofs/LogFacts.v
theories/Properties/LogProps.v
theories/Model/Packets.v
theories/Spec/PacketSpec.v
theories/Proofs/PacketFacts.v
theories/Proofs/PacketLayout.v
theories/Properties/PacketProps.v
theories/Model/Hooks.v
theories/Spec/HookSpec.v
theories/Proofs/HookFacts.v
theories/Properties/HookProps.v
theories/Model/TsEst.v
theories/Spec/TsSpec.v
theories/Proofs/TsFacts.v
theories/Properties/TsProps.v
theories/Model/Slcan.v
theories/Spec/SlcanSpec.v
theories/Spec/LineSpec.v
theories/Proofs/SlcanFacts.v
theories/Proofs/LineFacts.v
theories/Properties/SlcanProps.v
theories/Model/Utf8.v
theories/Model/ObjectApi.v
theories/Spec/ObjectSpec.v
theories/Proofs/Utf8Facts.v
theories/Proofs/ObjectFacts.v
theories/Proofs/ObjectTop.v
theories/Proofs/ObjectArrays.v
theories/Proofs/ObjectText.v
theories/Proofs/ObjectUnions.v
theories/Proofs/ObjectMore.v
theories/Properties/ObjectProps.v
theories/Model/Parser.v
theories/Spec/ParserSpec.v
theories/Proofs/ParserText.v
theories/Proofs/ParserFacts.v
theories/Proofs/ParserMeaning.v
theories/Proofs/ParserNorm.v
theories/Proofs/ParserLoad.v
theories/Properties/ParserProps.v
theories/Spec/GrammarSpec.v
theories/Proofs/GrammarNumbers.v
theories/Proofs/GrammarTypes.v
theories/Proofs/GrammarLines.v
theories/Proofs/GrammarFacts.v
theories/Proofs/FloatInt.v
theories/Properties/GrammarProps.v
theories/Spec/PathSpec.v
theories/Proofs/PathFacts.v
theories/Properties/PathProps.v
theories/Spec/SignatureSpec.v
theories/Proofs/SignatureText.v
theories/Proofs/SignatureHash.v
theories/Proofs/SignatureMix.v
theories/Properties/SignatureProps.v
theories/Model/Bridge.v
theories/Model/Introspect.v
theories/Spec/BridgeSpec.v
theories/Spec/IntrospectSpec.v
theories/Proofs/BridgeFacts.v
theories/Proofs/IntrospectNames.v
theories/Proofs/IntrospectFacts.v
theories/Properties/BridgeProps.v
theories/Properties/IntrospectProps.v
theories/Model/SlcanCli.v
theories/Spec/SlcanCliSpec.v
theories/Proofs/SlcanCliFacts.v
theories/Proofs/SlcanCliTop.v
theories/Proofs/SlcanCliExact.v
theories/Proofs/SlcanCalls.v
theories/Properties/SlcanCliProps.v
theories/Model/SlcanInit.v
theories/Spec/SlcanInitSpec.v
theories/Proofs/SlcanInitFacts.v
theories/Properties/SlcanInitProps.v
theories/Model/Mavcan.v
theories/Spec/MavcanSpec.v
theories/Proofs/MavcanFacts.v
theories/Properties/MavcanProps.v
theories/Model/MsgIdTool.v
theories/Properties/MsgIdToolProps.v
theories/Spec/CallSpec.v
theories/Proofs/NodeCall.v
theories/Proofs/NodeCallTop.v
theories/Properties/CallProps.v
theories/Model/Writer.v
theories/Spec/WriterSpec.v
theories/Proofs/WriterFacts.v
theories/Properties/WriterProps.v
theories/Spec/NoiseSpec.v
theories/Proofs/NodeNoise.v
theories/Properties/NoiseProps.v
theories/Spec/StatusSpec.v
theories/Proofs/NodeStatus.v
theories/Properties/StatusProps.v
theories/Model/Namespaces.v
theories/Spec/NamespaceSpec.v
theories/Proofs/NamespaceFacts.v
theories/Properties/NamespaceProps.v
theories/Spec/LinkSpec.v
theories/Proofs/LinkFacts.v
theories/Properties/LinkProps.v
theories/Model/SlcanIo.v
theories/Spec/SlcanIoSpec.v
theories/Proofs/SlcanIoFacts.v
theories/Properties/SlcanIoProps.v
theories/Model/Drivers.v
theories/Spec/DriverSpec.v
theories/Proofs/DriverFacts.v
theories/Properties/DriverProps.v
theories/Spec/StampSpec.v
theories/Proofs/StampFacts.v
theories/Properties/StampProps.v
theories/Model/McastIo.v
theories/Spec/McastSpec.v
theories/Proofs/McastFacts.v
theories/Properties/McastProps.v
theories/Model/TcpLink.v
theories/Spec/TcpSpec.v
theories/Proofs/TcpFacts.v
theories/Properties/TcpProps.v
theories/Model/EscEnum.v
theories/Spec/EnumSpec.v
theories/Proofs/EnumFacts.v
theories/Properties/EnumProps.v
theories/Model/FileNode.v
theories/Spec/DownloadSpec.v
theories/Proofs/DownloadFacts.v
theories/Properties/DownloadProps.v
theories/Model/FwUpdate.v
theories/Spec/FwSpec.v
theories/Proofs/FwFacts.v
theories/Properties/FwProps.v
theories/Model/OwnStatus.v
theories/Spec/OwnStatusSpec.v
theories/Proofs/OwnStatusFacts.v
theories/Properties/OwnStatusProps.v
theories/Spec/StreamSpec.v
theories/Proofs/StreamFacts.v
theories/Proofs/TypedStream.v
theories/Properties/StreamProps.v
theories/Proofs/RouteFacts.v
theories/Properties/RouteProps.v
theories/Model/MavTunnel.v
theories/Spec/TunnelSpec.v
theories/Proofs/TunnelFacts.v
theories/Properties/TunnelProps.v
theories/Model/Canlog.v
theories/Spec/CanlogSpec.v
theories/Proofs/CanlogFacts.v
theories/Properties/CanlogProps.v
theories/Model/Watchers.v
theories/Spec/WatchersSpec.v
theories/Proofs/WatchersFacts.v
theories/Properties/WatchersProps.v
theories/Model/AllocSystem.v
theories/Spec/AllocSystemSpec.v
theories/Proofs/AllocSystemFacts.v
theories/Properties/AllocSystemProps.v
theories/Model/RtcmDump.v
theories/Spec/RtcmSpec.v
theories/Proofs/RtcmFacts.v
theories/Properties/RtcmProps.v
theories/Model/FixGap.v
theories/Spec/FixGapSpec.v
theories/Proofs/FixGapFacts.v
theories/Properties/FixGapProps.v
theories/Model/LogMonitor.v
theories/Spec/LogMonitorSpec.v
theories/Proofs/LogMonitorFacts.v
theories/Properties/LogMonitorProps.v
theories/Spec/RegistrySpec.v
theories/Proofs/RegistryFacts.v
theories/Proofs/TaskErrors.v
theories/Properties/RegistryProps.v
theories/Spec/RouteSpec.v
theories/Proofs/RouteCallFacts.v
theories/Properties/RouteCallProps.v
theories/Model/MavDriver.v
theories/Spec/MavDriverSpec.v
theories/Proofs/MavDriverFacts.v
theories/Properties/MavDriverProps.v
theories/Model/SockStamp.v
theories/Spec/SockStampSpec.v
theories/Proofs/SockStampFacts.v
theories/Properties/SockStampProps.v
theories/Model/LogProgress.v
theories/Spec/LogProgressSpec.v
theories/Proofs/LogProgressFacts.v
theories/Properties/LogProgressProps.v
theories/Spec/SpinSpec.v
theories/Proofs/SpinFacts.v
theories/Properties/SpinProps.v
theories/Model/TransferHooks.v
theories/Spec/TransferHookSpec.v
theories/Proofs/TransferHookFacts.v
theories/Properties/TransferHookProps.v
theories/Model/ObjectEq.v
theories/Spec/ObjectEqSpec.v
theories/Proofs/ObjectEqFacts.v
theories/Proofs/ObjectEqNumbers.v
theories/Properties/ObjectEqProps.v
theories/Spec/SendableSpec.v
theories/Proofs/ObjectTyping.v
theories/Proofs/ObjectInv.v
theories/Proofs/ObjectSend.v
theories/Proofs/ObjectFloats.v
theories/Properties/ObjectSendProps.v
theories/Spec/BuiltSpec.v
theories/Proofs/ObjectRoute.v
theories/Properties/ObjectRouteProps.v
theories/Model/ObjectUnpack.v
theories/Spec/ReceiveSpec.v
theories/Proofs/ObjectLoad.v
theories/Proofs/ObjectLoadInv.v
theories/Proofs/ObjectView.v
theories/Proofs/ObjectReceive.v
theories/Properties/ReceiveProps.v
theories/Spec/ConstructSpec.v
theories/Proofs/ConstructFacts.v
theories/Properties/ConstructProps.v
theories/Model/Hobbywing.v
theories/Spec/HobbywingSpec.v
theories/Proofs/HobbywingFacts.v
theories/Properties/HobbywingProps.v
theories/Spec/NumberSpec.v
theories/Proofs/NumberFacts.v
theories/Proofs/NumberArrive.v
theories/Properties/NumberProps.v
theories/Proofs/ParserRaise.v
theories/Properties/RaiseProps.v
theories/Model/Publishers.v
theories/Spec/PublishSpec.v
theories/Proofs/PublishFacts.v
theories/Proofs/PublishText.v
theories/Properties/PublishProps.v
theories/Model/Waiting.v
theories/Spec/WaitSpec.v
theories/Proofs/WaitFacts.v
theories/Properties/WaitProps.v
theories/Model/NodePoll.v
theories/Proofs/NodePollFacts.v
theories/Properties/PollProps.v
theories/Model/Detect.v
theories/Proofs/DetectFacts.v
theories/Properties/DetectProps.v
theories/Model/FindAll.v
theories/Proofs/FindAllFacts.v
theories/Properties/FindAllProps.v
theories/Model/FrameText.v
theories/Spec/FrameTextSpec.v
theories/Proofs/FrameTextFacts.v
theories/Properties/FrameTextProps.v
