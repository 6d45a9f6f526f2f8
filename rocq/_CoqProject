-Q theories Verif
theories/Types.v
theories/Sqlite.v
theories/ChunkDb.v
theories/SubmissionDb.v
theories/SqliteProofs.v
theories/DbProofs.v
theories/History.v
theories/Spec.v
theories/StepProofs.v
theories/InvProofs.v
theories/ViewProofs.v
theories/LifecycleProofs.v
theories/AttrProofs.v
theories/QueueProofs.v
theories/FateProofs.v
theories/RetryProofs.v
theories/ProducerServer.v
theories/PanicProofs.v
theories/OpProofs.v
theories/LookupProofs.v
theories/AnswerProofs.v
theories/PropPanic.v
theories/Waiters.v
theories/PropWaiters.v
theories/Labels.v
theories/PropLabels.v
theories/PropOnce.v
theories/PropOnceClient.v
theories/PropLimit.v
theories/PropQueue.v
theories/MetaState.v
theories/MetaStateProofs.v
theories/Strategy.v
theories/StrategyProofs.v
theories/Reserver.v
theories/ReserverProofs.v
theories/PropDispatch.v
theories/PropOrder.v
theories/PropDirect.v
theories/PropTrust.v
theories/PropGiven.v
theories/PropTrace.v
theories/PropGauge.v
theories/PropFresh.v
theories/ScalingLoop.v
theories/PropScaling.v
theories/Ids.v
theories/IdsProofs.v
theories/PropIds.v
theories/Url.v
theories/UrlProofs.v
theories/ProducerClient.v
theories/ProducerClientProofs.v
theories/ConsumerClient.v
theories/ConsumerClientProofs.v
theories/PropClients.v
theories/Heartbeat.v
theories/HeartbeatProofs.v
theories/PropHeartbeat.v
theories/SharedClient.v
theories/SharedClientProofs.v
theories/PropShared.v
theories/Server.v
theories/HoldProofs.v
theories/ServerProofs.v
theories/FetchProofs.v
theories/WorkProofs.v
theories/ServerFacts.v
theories/SpacingProofs.v
theories/LeakProofs.v
theories/CountProofs.v
theories/PropServer.v
theories/Readers.v
theories/ReadersProofs.v
theories/PropReaders.v
theories/ServerMetrics.v
theories/Mailbox.v
theories/PropMailbox.v
theories/ServerMetricsProofs.v
theories/PropServerMetrics.v
theories/Rfc3339.v
theories/Rfc3339Proofs.v
theories/Wire.v
theories/WireProofs.v
theories/PropWire.v
theories/PropUrl.v
theories/Julian.v
theories/JulianProofs.v
theories/PropJulian.v
theories/Bytes.v
theories/BytesProofs.v
theories/PropBytes.v
theories/PropMain.v
theories/ObjectStore.v
theories/ObjectStoreProofs.v
theories/PyLib.v
theories/World.v
theories/PyProofs.v
theories/PropPython.v
theories/WorldProofs.v
theories/PropWorld.v
theories/Durability.v
theories/DurabilityProofs.v
theories/Retention.v
theories/RetentionProofs.v
theories/Backlog.v
theories/BacklogProofs.v
theories/Pool.v
theories/PoolProofs.v
theories/PropPool.v
theories/Metrics.v
theories/MetricsProofs.v
theories/PropOps.v
theories/PropMetrics.v
theories/RunLoop.v
theories/RunLoopProofs.v
theories/Boot.v
theories/BootProofs.v
theories/App.v
theories/PropApp.v
theories/SqlLang.v
theories/Migrations.v
theories/SqlText.v
theories/SqlTable.v
theories/SqlProofs.v
theories/SqlStatements.v
theories/SqlRefine.v
theories/SqlCalm.v
theories/SqlQuery.v
theories/SqlQueryProofs.v
theories/SqlLookupProofs.v
theories/Upgrade.v
theories/UpgradeProofs.v
theories/UpgradeExamples.v
theories/PropSql.v
theories/PropQuery.v
theories/PyApi.v
theories/PyDirect.v
theories/Frames.v
theories/Trace.v
theories/PyApiProofs.v
theories/PropPyApi.v
theories/PyStream.v
theories/PyStreamProofs.v
theories/PropPyStream.v
theories/PyConsumer.v
theories/PyConsumerProofs.v
theories/PropPyConsumer.v
theories/PyOps.v
theories/PyOpsProofs.v
theories/PropPyOps.v
