-Q theories Verif
theories/GoBase.v
theories/Encoding.v
theories/SpecEncoding.v
theories/EncodingFacts.v
theories/CodecFacts.v
theories/DecodeFacts.v
theories/CodecTop.v
theories/Records.v
theories/CodecLemmas.v
theories/BuiltinFacts.v
theories/CodecExamples.v
theories/Props_Encoding.v
theories/Messages.v
theories/SpecMessages.v
theories/MessageFacts.v
theories/Props_Messages.v
theories/Env.v
theories/SyncMap.v
theories/Tokens.v
theories/SpecTokens.v
theories/B64Facts.v
theories/TokenFacts.v
theories/SyncMapFacts.v
theories/Cache.v
theories/SpecStore.v
theories/StoreFacts.v
theories/AccumFacts.v
theories/StoreLemmas.v
theories/ListFacts.v
theories/EventFacts.v
theories/HistFacts.v
theories/StoreExamples.v
theories/Props_Store.v
theories/Props_Site.v
theories/Dispatch.v
theories/DispatchFacts.v
theories/Props_Dispatch.v
theories/StoreConc.v
theories/ConcFacts.v
theories/ConcLemmas.v
theories/ConcExamples.v
theories/Props_Conc.v
theories/Diff.v
theories/DiffFacts.v
theories/ConvergeFacts.v
theories/Props_Converge.v
theories/Manager.v
theories/ManagerFacts.v
theories/ManagerPass.v
theories/ManagerLive.v
theories/ManagerExamples.v
theories/Props_Manager.v
theories/Run.v
theories/Keepalive.v
theories/KeepaliveFacts.v
theories/KeepaliveLive.v
theories/Props_Keepalive.v
theories/Client.v
theories/ClientFacts.v
theories/ClientClose.v
theories/ClientFlush.v
theories/ClientLive.v
theories/Props_Client.v
theories/Discovery.v
theories/DiscoveryFacts.v
theories/DiscoveryLive.v
theories/DiscoveryProgress.v
theories/WatchFacts.v
theories/WatchLive.v
theories/WatchMore.v
theories/Props_Discovery.v
theories/Session.v
theories/SessionFacts.v
theories/SessionCont.v
theories/SessionLink.v
theories/SessionSerial.v
theories/SessionEnd.v
theories/SessionAlone.v
theories/SessionExamples.v
theories/Props_Session.v
theories/SessionLive.v
theories/SessionResults.v
theories/Props_SessionLive.v
theories/Mock.v
theories/MockFacts.v
theories/MockCalls.v
theories/MockOrder.v
theories/MockLive.v
theories/Props_Mock.v
theories/Tool.v
theories/ToolFacts.v
theories/ReplayFacts.v
theories/ToolExamples.v
theories/Props_Tool.v
theories/Alias.v
theories/SpecAlias.v
theories/AliasFacts.v
theories/Props_Alias.v
theories/Connect.v
theories/Props_Connect.v
theories/Backoff.v
theories/BackoffFacts.v
theories/Props_Backoff.v
theories/Vancap.v
theories/Props_Vancap.v
theories/Fixture.v
theories/SpecFixture.v
theories/FixtureFacts.v
theories/Props_Fixture.v
theories/EndToEnd.v
theories/EndToEndExamples.v
theories/Props_EndToEnd.v
theories/Collector.v
theories/CollectorFacts.v
theories/CollectorList.v
theories/Props_Collector.v
theories/Http.v
theories/HttpFacts.v
theories/Props_Http.v
theories/FlushTool.v
theories/FlushToolFacts.v
theories/Props_FlushTool.v
theories/LogTool.v
theories/LogToolFacts.v
theories/Props_LogTool.v
theories/ToolConns.v
theories/ToolConnsFacts.v
theories/Props_ToolConns.v
theories/WatchSilence.v
theories/ToolRecovery.v
theories/Props_ToolRecovery.v
theories/ServeExit.v
theories/ServeExitFacts.v
theories/Props_ServeExit.v
theories/Loops.v
theories/LoopsFacts.v
theories/LoopsLive.v
theories/LoopsEnd.v
theories/Props_Loops.v
theories/ClientReentry.v
theories/ClientReentryFacts.v
theories/Props_ClientReentry.v
theories/StoreReentry.v
theories/StoreReentryFacts.v
theories/StoreReentryOrder.v
theories/Props_StoreReentry.v
theories/UserCodec.v
theories/UserCodecFacts.v
theories/Props_UserCodec.v
theories/WatchClient.v
theories/WatchClientFacts.v
theories/WatchClientInv.v
theories/WatchClientLive.v
theories/Props_WatchClient.v
theories/Collect.v
theories/CollectFacts.v
theories/CollectLive.v
theories/CollectMore.v
theories/Props_Collect.v
theories/Arrive.v
theories/Props_Arrive.v
theories/RegistryConc.v
theories/RegistryConcFacts.v
theories/Props_RegistryConc.v
theories/UserMessages.v
theories/VersionsFacts.v
theories/Props_Versions.v
theories/IndexPanic.v
theories/IndexPanicFacts.v
theories/Props_IndexPanic.v
theories/StoreLock.v
theories/StoreLockFacts.v
theories/Props_StoreLock.v
theories/Restart.v
theories/RestartFacts.v
theories/Props_Restart.v
theories/WireTable.v
theories/WireFacts.v
theories/Props_Wire.v
theories/DiscoveryRuns.v
theories/DiscoveryRunsFacts.v
theories/Props_DiscoveryRuns.v
theories/ManagerRuns.v
theories/ManagerRunsFacts.v
theories/ManagerRunsFlush.v
theories/Props_ManagerRuns.v
theories/FlushAny.v
theories/FlushAnyFacts.v
theories/Props_FlushAny.v
theories/Live.v
theories/LiveFacts.v
theories/Props_Live.v
theories/SilentFacts.v
theories/Props_Silent.v
theories/ServeTime.v
theories/ServeTimeFacts.v
theories/ServeFlushFacts.v
theories/Props_ServeTime.v
