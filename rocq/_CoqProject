-Q theories Verif
theories/AmplifyPf.v
theories/AmplifySpec.v
theories/Base.v
theories/Bencode.v
theories/BencodePf.v
theories/BencodeProofs.v
theories/BencodeSpec.v
theories/BootHostPf.v
theories/BucketConc.v
theories/BucketConcPf.v
theories/BucketConcSpec.v
theories/BytesPool.v
theories/BytesPoolPf.v
theories/CmdLine.v
theories/CmdLinePf.v
theories/CmdLineProofs.v
theories/CmdLineSpec.v
theories/CodecPf.v
theories/CodecSpec.v
theories/Conc.v
theories/ConcPf.v
theories/ConcProofs.v
theories/ConcSpec.v
theories/Config.v
theories/ConfigPf.v
theories/ConsoleLog.v
theories/ConsoleLogPf.v
theories/ConsoleLogProofs.v
theories/ConsoleLogSpec.v
theories/CrawlPf.v
theories/CrawlProofs.v
theories/CrawlSpec.v
theories/Crowd.v
theories/CrowdOk.v
theories/CrowdPf.v
theories/CrowdProofs.v
theories/CrowdSim.v
theories/Dht.v
theories/DhtPf.v
theories/DhtProofs.v
theories/DhtSpec.v
theories/Errors.v
theories/ErrorsPf.v
theories/FairPf.v
theories/FairSpec.v
theories/Fetch.v
theories/FetchLog.v
theories/FetchLogPf.v
theories/FetchLogProofs.v
theories/FetchLogSpec.v
theories/FetchPf.v
theories/FetchProofs.v
theories/FetchSpec.v
theories/FetchTorrent.v
theories/FetchTorrentPf.v
theories/FetchTorrentSpec.v
theories/FileSys.v
theories/FileSysPf.v
theories/FileSysProofs.v
theories/FileSysSpec.v
theories/FirstStart.v
theories/FirstStartPf.v
theories/FirstStartProofs.v
theories/GenericPf.v
theories/GoLib.v
theories/InfoFilesPf.v
theories/InfoFilesSpec.v
theories/InfoLog.v
theories/InfoLogPf.v
theories/InfoLogProofs.v
theories/InfoLogSpec.v
theories/JobLog.v
theories/JobLogPf.v
theories/JobLogSpec.v
theories/Json.v
theories/JsonPf.v
theories/JsonProofs.v
theories/JsonSpec.v
theories/Krpc.v
theories/KrpcPf.v
theories/KrpcProofs.v
theories/KrpcSpec.v
theories/Lifecycle.v
theories/LifecyclePf.v
theories/LifecycleProofs.v
theories/LifecycleSpec.v
theories/LogFiles.v
theories/LogFilesPf.v
theories/LogFilesProofs.v
theories/LogFilesSpec.v
theories/LogReg.v
theories/LogRegPf.v
theories/LogRegSpec.v
theories/Logger.v
theories/LoggerPf.v
theories/LoggerRace.v
theories/LoggerRacePf.v
theories/LoggerSpec.v
theories/Mem.v
theories/MemPf.v
theories/MemProofs.v
theories/MemSpec.v
theories/Middleware.v
theories/MiddlewarePf.v
theories/NetAddr.v
theories/NetAddrPf.v
theories/NetAddrProofs.v
theories/NetAddrSpec.v
theories/NetCrawl.v
theories/NetCrawlPf.v
theories/NetCrawlProofs.v
theories/NetCrawlSpec.v
theories/NetLitProofs.v
theories/Node.v
theories/NodePf.v
theories/P_Amplify.v
theories/P_Bencode.v
theories/P_BootHost.v
theories/P_BucketConc.v
theories/P_BytesPool.v
theories/P_CmdLine.v
theories/P_Codec.v
theories/P_Conc.v
theories/P_Config.v
theories/P_ConsoleLog.v
theories/P_Crawl.v
theories/P_Crowd.v
theories/P_Dht.v
theories/P_Errors.v
theories/P_Fair.v
theories/P_Fetch.v
theories/P_FetchLog.v
theories/P_FetchTorrent.v
theories/P_FileSys.v
theories/P_FirstStart.v
theories/P_Generic.v
theories/P_InfoFiles.v
theories/P_InfoLog.v
theories/P_JobLog.v
theories/P_Json.v
theories/P_Krpc.v
theories/P_Lifecycle.v
theories/P_LogFiles.v
theories/P_LogReg.v
theories/P_Logger.v
theories/P_LoggerRace.v
theories/P_Mem.v
theories/P_Middleware.v
theories/P_NetAddr.v
theories/P_NetCrawl.v
theories/P_Node.v
theories/P_PeerWire.v
theories/P_Pprof.v
theories/P_Quiet.v
theories/P_RecvLog.v
theories/P_Responses.v
theories/P_RouteTable.v
theories/P_Session.v
theories/P_Sha1.v
theories/P_Share.v
theories/P_Shutdown.v
theories/P_ShutdownConc.v
theories/P_Startup.v
theories/P_SyncMap.v
theories/P_System.v
theories/P_Timed.v
theories/P_TorrentCmd.v
theories/P_Trace.v
theories/P_Trunc.v
theories/P_Types.v
theories/P_Udp.v
theories/P_Utf8.v
theories/P_Whom.v
theories/P_WorkPool.v
theories/P_ZapLog.v
theories/PeerWire.v
theories/PeerWirePf.v
theories/Pprof.v
theories/PprofPf.v
theories/PprofSpec.v
theories/QuietPf.v
theories/QuietSpec.v
theories/RecvLog.v
theories/RecvLogPf.v
theories/RecvLogSpec.v
theories/ResponsesPf.v
theories/RouteTable.v
theories/RouteTablePf.v
theories/RouteTableProofs.v
theories/SessionPf.v
theories/SessionProofs.v
theories/SessionRun.v
theories/SessionSpec.v
theories/Sha1.v
theories/Sha1Pf.v
theories/Sha1Proofs.v
theories/Sha1Spec.v
theories/SharePf.v
theories/ShareProofs.v
theories/ShareSpec.v
theories/Shutdown.v
theories/ShutdownConc.v
theories/ShutdownConcPf.v
theories/ShutdownPf.v
theories/SizeProofs.v
theories/Startup.v
theories/StartupPf.v
theories/StartupSpec.v
theories/SyncMap.v
theories/SyncMapPf.v
theories/SyncMapSpec.v
theories/System.v
theories/SystemLive.v
theories/SystemPf.v
theories/SystemProofs.v
theories/SystemSpec.v
theories/Timed.v
theories/TimedPf.v
theories/TimedSim.v
theories/TimedSpec.v
theories/TorrentCmd.v
theories/TorrentCmdPf.v
theories/TracePf.v
theories/TruncPf.v
theories/Types.v
theories/TypesPf.v
theories/Udp.v
theories/UdpPf.v
theories/UdpProofs.v
theories/UdpSpec.v
theories/Utf8Pf.v
theories/Utf8Proofs.v
theories/Utf8Spec.v
theories/WhomPf.v
theories/WorkPool.v
theories/WorkPoolPf.v
theories/WorkPoolSpec.v
theories/ZapLog.v
theories/ZapLogPf.v
theories/ZapLogProofs.v
theories/ZapLogSpec.v
