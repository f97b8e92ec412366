-Q theories Verif
theories/AcceptModel.v
theories/AnswerModel.v
theories/Assumptions.v
theories/AuthModel.v
theories/BbrModel.v
theories/BlackModel.v
theories/BlockModel.v
theories/BufModel.v
theories/BufioModel.v
theories/BufioProofs.v
theories/ChanModel.v
theories/ChecksumModel.v
theories/ChunkedModel.v
theories/ClientCloseModel.v
theories/ClogModel.v
theories/CommandModel.v
theories/ConcModel.v
theories/ConnectModel.v
theories/DeadlineModel.v
theories/DialerModel.v
theories/DispatchModel.v
theories/DurModel.v
theories/FlagsModel.v
theories/FlagsProofs.v
theories/FormModel.v
theories/ForwardModel.v
theories/FrameInv.v
theories/FrameModel.v
theories/FrameProofs.v
theories/FrameProofsC.v
theories/FrameProofsD.v
theories/FrameProofsE.v
theories/FrameSpec.v
theories/GoBase.v
theories/GoBaseLemmas.v
theories/GoneModel.v
theories/HalfInv.v
theories/HalfModel.v
theories/HandshakeModel.v
theories/HandshakeProofs.v
theories/HandshakeSpec.v
theories/HostRewriteCap.v
theories/HostRewriteModel.v
theories/HostRewriteProofs.v
theories/HostRewriteSpec.v
theories/HttpModel.v
theories/HttpProofs.v
theories/HttpSpec.v
theories/IdleModel.v
theories/KeepModel.v
theories/LaunchModel.v
theories/LeaveModel.v
theories/LocalModel.v
theories/LogModel.v
theories/LogProofs.v
theories/ManagerModel.v
theories/OpModel.v
theories/PageRulesModel.v
theories/PeerIdleModel.v
theories/PeerLifeModel.v
theories/PeerModel.v
theories/PeerPoolModel.v
theories/PipeModel.v
theories/PlaceModel.v
theories/PlatformModel.v
theories/PortsModel.v
theories/PortsSpec.v
theories/Props_Accept.v
theories/Props_Answer.v
theories/Props_Auth.v
theories/Props_Bbr.v
theories/Props_Black.v
theories/Props_Block.v
theories/Props_Buf.v
theories/Props_Chan.v
theories/Props_Checksum.v
theories/Props_Chunked.v
theories/Props_ClientClose.v
theories/Props_Clog.v
theories/Props_Command.v
theories/Props_Conc.v
theories/Props_Connect.v
theories/Props_Deadline.v
theories/Props_Dialer.v
theories/Props_Dispatch.v
theories/Props_Dur.v
theories/Props_First.v
theories/Props_Flags.v
theories/Props_Form.v
theories/Props_Forward.v
theories/Props_Frames.v
theories/Props_Gone.v
theories/Props_Half.v
theories/Props_Handshake.v
theories/Props_HostRewrite.v
theories/Props_Http.v
theories/Props_Idle.v
theories/Props_Keep.v
theories/Props_KeepAlive.v
theories/Props_Launch.v
theories/Props_Leave.v
theories/Props_Local.v
theories/Props_LocalTold.v
theories/Props_Log.v
theories/Props_Manager.v
theories/Props_Op.v
theories/Props_PageRules.v
theories/Props_PageTimes.v
theories/Props_Peer.v
theories/Props_PeerIdle.v
theories/Props_PeerLife.v
theories/Props_PeerPool.v
theories/Props_Pipe.v
theories/Props_Place.v
theories/Props_Platform.v
theories/Props_Ports.v
theories/Props_Qobj.v
theories/Props_Rand.v
theories/Props_Ready.v
theories/Props_Reconn.v
theories/Props_Reg.v
theories/Props_Reload.v
theories/Props_Reopt.v
theories/Props_Route.v
theories/Props_Send.v
theories/Props_Services.v
theories/Props_Shutdown.v
theories/Props_Start.v
theories/Props_Status.v
theories/Props_Stdio.v
theories/Props_Stop.v
theories/Props_SyncMap.v
theories/Props_Tcp.v
theories/Props_Thread.v
theories/Props_Token.v
theories/Props_Torn.v
theories/Props_TornRead.v
theories/Props_TornSvc.v
theories/Props_Wait.v
theories/Props_WebAuth.v
theories/Props_WebConf.v
theories/Props_WebList.v
theories/Props_WebSaves.v
theories/Props_WebStart.v
theories/Props_Wire.v
theories/Props_Worker.v
theories/QobjModel.v
theories/RandModel.v
theories/ReconnModel.v
theories/RegInv.v
theories/RegModel.v
theories/RegProofs.v
theories/ReloadModel.v
theories/ReoptModel.v
theories/RouteModel.v
theories/SendModel.v
theories/ServicesModel.v
theories/ShutdownModel.v
theories/StartModel.v
theories/StatusModel.v
theories/StdioModel.v
theories/StopModel.v
theories/SyncMapModel.v
theories/SyncMapProofs.v
theories/SyncMapSim.v
theories/SyncMapSpec.v
theories/TcpModel.v
theories/ThreadModel.v
theories/TokenModel.v
theories/TornModel.v
theories/WaitModel.v
theories/WebAuthModel.v
theories/WebConfModel.v
theories/WebListModel.v
theories/WebSavesModel.v
theories/WebStartModel.v
theories/WorkerModel.v
