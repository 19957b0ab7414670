-Q theories Verif
theories/Base.v
theories/BaseFacts.v
theories/Codec.v
theories/CodecSwap.v
theories/CodecProofs.v
theories/TableModel.v
theories/TableSpec.v
theories/TableEnc.v
theories/TableDec.v
theories/TableRT.v
theories/Prop_Table.v
theories/FramingStmt.v
theories/FramingGen.v
theories/FramingModel.v
theories/MethodSpec.v
theories/FramingEnc.v
theories/FramingDec.v
theories/FramingProps.v
theories/Prop_Method.v
theories/Frame.v
theories/FrameSpec.v
theories/FrameProofs.v
theories/FrameStream.v
theories/FrameFacts.v
theories/FrameInit.v
theories/FrameNew.v
theories/Prop_Frame.v
theories/PermTac.v
theories/Time.v
theories/Prop_Time.v
theories/ErrStr.v
theories/Prop_ErrStr.v
theories/Sasl.v
theories/Prop_Sasl.v
theories/Pool.v
theories/PoolSpec.v
theories/PoolProofs.v
theories/Prop_Pool.v
theories/TableOps.v
theories/Prop_TableOps.v
theories/Url.v
theories/UrlProofs.v
theories/UrlParse.v
theories/UrlSpec.v
theories/Prop_Url.v
theories/Net.v
theories/NetApi.v
theories/NetSpec.v
theories/NetFacts.v
theories/NetSend.v
theories/NetRecv.v
theories/NetWalk.v
theories/NetAcct.v
theories/NetOrder.v
theories/NetWait.v
theories/NetOff.v
theories/NetCalls.v
theories/EncStatus.v
theories/NetRpc.v
theories/NetOffAll.v
theories/Queue.v
theories/NetChan.v
theories/Prop_Send.v
theories/Prop_Release.v
theories/CallSpec.v
theories/Prop_Rpc.v
theories/NetTyped.v
theories/NetRx.v
theories/Prop_Calls.v
theories/Prop_Queue.v
theories/Prop_Consume.v
theories/NetWell.v
theories/Prop_Receive.v
theories/NetRoom.v
theories/Prop_Safe.v
theories/Prop_Message.v
theories/NetShort.v
theories/Prop_Publish.v
theories/Prop_Relay.v
theories/NetKeep.v
theories/LoginSpec.v
theories/NetLogin.v
theories/NetGet.v
theories/Prop_Login.v
theories/NetFuel.v
theories/NetProg.v
theories/Prop_Progress.v
theories/HeartbeatSpec.v
theories/NetWatch.v
theories/NetAttend.v
theories/NetVerdict.v
theories/Prop_Heartbeat.v
theories/Os.v
theories/ConnectSpec.v
theories/OsFacts.v
theories/OsAcct.v
theories/Prop_Connect.v
theories/Prop_Tls.v
theories/SslGlobal.v
theories/Prop_SslGlobal.v
theories/Tools.v
theories/Prop_Tools.v
theories/ToolOpts.v
theories/Prop_ToolOpts.v
theories/TimeoutSpec.v
theories/NetPunctual.v
theories/NetTimeUp.v
theories/NetSlip.v
theories/Prop_Timeout.v
theories/ToolPublish.v
theories/ToolConsume.v
theories/ToolSpec.v
theories/Prop_ToolPublish.v
theories/Prop_ToolConsume.v
theories/ClosedSpec.v
theories/NetDeaf.v
theories/NetFd.v
theories/Prop_Closed.v
theories/Life.v
theories/LifeSpec.v
theories/LifeProofs.v
theories/Prop_Life.v
theories/NameSpec.v
theories/Prop_Names.v
theories/Prop_Pending.v
theories/CalmSpec.v
theories/NetCalm.v
theories/NetCalmApi.v
theories/NetCalmExec.v
theories/SessionSpec.v
theories/NetCalmLogin.v
theories/Prop_Calm.v
theories/Prop_Session.v
theories/DecStatus.v
theories/SpeakSpec.v
theories/NetSpeak.v
theories/NetWire.v
theories/NetNear.v
theories/NetNearAll.v
theories/Prop_Wire.v
theories/CodesSpec.v
theories/NetCodes.v
theories/NetCodesAll.v
theories/NetCodesLogin.v
theories/Prop_Codes.v
theories/NetRefused.v
theories/Prop_Effect.v
theories/PushSpec.v
theories/NetPush.v
theories/Prop_Push.v
theories/Prop_WaitMethod.v
theories/TlsConfig.v
theories/Prop_TlsConfig.v
theories/ToolQueue.v
theories/Prop_ToolQueue.v
theories/Sockets.v
theories/Prop_Sockets.v
theories/ToolError.v
theories/ReportSpec.v
theories/Prop_ToolError.v
theories/ParleySpec.v
theories/NetLoginWire.v
theories/Prop_Parley.v
theories/ToolMain.v
theories/ProgramSpec.v
theories/Prop_ToolMain.v
theories/ToolRun.v
theories/RunSpec.v
theories/Prop_ToolRun.v
theories/ToolGet.v
theories/GetSpec.v
theories/Prop_ToolGet.v
theories/ToolListen.v
theories/ListenSpec.v
theories/Prop_ToolListen.v
theories/Bio.v
theories/Prop_Bio.v
theories/TlsRecords.v
theories/Prop_TlsRecords.v
theories/NetStuck.v
theories/NetRoomLogin.v
theories/NetProper.v
theories/Prop_Whole.v
theories/Waiting.v
theories/Prop_Waiting.v
theories/Process.v
theories/Prop_Process.v
theories/Engine.v
theories/Prop_Engine.v
theories/ByteStr.v
theories/Prop_ByteStr.v
