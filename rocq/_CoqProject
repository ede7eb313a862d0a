-Q theories Verif
theories/Types.v
theories/Lib.v
theories/STF.v
theories/STFSpec.v
theories/JustProofs.v
theories/STFProofs.v
theories/STFInv.v
theories/STFChain.v
theories/STFThms.v
theories/STFAtt.v
theories/STFExamples.v
theories/STFMore.v
theories/PropsSTF.v
theories/ForkChoice.v
theories/FCSpec.v
theories/FCProofs.v
theories/FCMore.v
theories/PropsFC.v
theories/Wire.v
theories/WireSpec.v
theories/WireProofs.v
theories/WireMore.v
theories/PropsWire.v
theories/Pools.v
theories/PoolSpec.v
theories/PoolProofs.v
theories/Keys.v
theories/KeysProofs.v
theories/PoolMore.v
theories/PropsPool.v
theories/Storage.v
theories/StorageSpec.v
theories/StorageProofs.v
theories/StorageMore.v
theories/InjHash.v
theories/StorageExamples.v
theories/PropsStorage.v
theories/Node.v
theories/NodeSpec.v
theories/NodeProofs.v
theories/NodeThms.v
theories/NodeThms2.v
theories/NodeThms3.v
theories/NodeThms4.v
theories/NodeThms5.v
theories/NodeThms6.v
theories/NodeExamples.v
theories/PropsNode.v
theories/Builder.v
theories/BuilderSpec.v
theories/BuilderGreedy.v
theories/BuilderSelect.v
theories/BuilderThms.v
theories/BuilderLive.v
theories/BuilderNode.v
theories/BuilderExamples.v
theories/PropsBuilder.v
theories/Agg.v
theories/AggSpec.v
theories/AggProofs.v
theories/AggNode.v
theories/AggSound.v
theories/AggExamples.v
theories/PropsAgg.v
theories/Actor.v
theories/ActorSpec.v
theories/ActorEasy.v
theories/ActorProofs.v
theories/ActorTrace.v
theories/ActorMaps.v
theories/ActorSafe.v
theories/ActorLost.v
theories/ActorEvents.v
theories/ActorDuty.v
theories/ActorRuns.v
theories/ActorAll.v
theories/ActorExamples.v
theories/PropsActor.v
theories/Sync.v
theories/SyncSpec.v
theories/SyncProofs.v
theories/SyncRange.v
theories/SyncRoot.v
theories/SyncExamples.v
theories/PropsSync.v
theories/Startup.v
theories/StartupSpec.v
theories/StartupProofs.v
theories/StartupNode.v
theories/StartupExamples.v
theories/PropsStartup.v
theories/DutySpec.v
theories/DutyProofs.v
theories/DutyAsk.v
theories/ActorFetch.v
theories/DutyExamples.v
theories/PropsDuty.v
theories/Serve.v
theories/ServeSpec.v
theories/ServeProofs.v
theories/ServeThms.v
theories/ServeExamples.v
theories/PropsServe.v
theories/Gossip.v
theories/GossipProofs.v
theories/PropsGossip.v
theories/Safety.v
theories/SafetyProofs.v
theories/SafetyExamples.v
theories/PropsSafety.v
theories/NodeVotes.v
theories/PropsVotes.v
theories/Packing.v
theories/PackingProofs.v
theories/PackingThms.v
theories/PackingOne.v
theories/PackingExamples.v
theories/PropsPacking.v
theories/EventBus.v
theories/BusSpec.v
theories/BusProofs.v
theories/BusThms.v
theories/PropsBus.v
theories/Xmss.v
theories/XmssSpec.v
theories/XmssProofs.v
theories/XmssExamples.v
theories/PropsXmss.v
theories/Backend.v
theories/BackendSpec.v
theories/BackendProofs.v
theories/PropsBackend.v
theories/Liveness.v
theories/LivenessProofs.v
theories/LivenessExamples.v
theories/PropsLiveness.v
theories/Peers.v
theories/PeersProofs.v
theories/PropsPeers.v
theories/MsgId.v
theories/MsgIdProofs.v
theories/PropsMsgId.v
theories/KeyFiles.v
theories/KeyFilesSpec.v
theories/KeyFilesProofs.v
theories/PropsKeyFiles.v
theories/TreeLog.v
theories/TreeLogSpec.v
theories/TreeLogProofs.v
theories/PropsTreeLog.v
theories/Monitor.v
theories/MonitorSpec.v
theories/MonitorProofs.v
theories/PropsMonitor.v
theories/Coverage.v
theories/CoverageSpec.v
theories/CoverageProofs.v
theories/PropsCoverage.v
theories/Crypto.v
theories/CryptoSpec.v
theories/CryptoProofs.v
theories/CryptoExamples.v
theories/PropsCrypto.v
theories/Conc.v
theories/ConcSpec.v
theories/ConcProofs.v
theories/ConcExamples.v
theories/PropsConc.v
theories/AgreeSpec.v
theories/AgreeProofs.v
theories/AgreeExamples.v
theories/PropsAgree.v
theories/Role.v
theories/RoleSpec.v
theories/RoleProofs.v
theories/RoleSim.v
theories/RoleExamples.v
theories/PropsRole.v
theories/CatchupSpec.v
theories/CatchupProofs.v
theories/CatchupPeer.v
theories/CatchupExamples.v
theories/PropsCatchup.v
theories/Collector.v
theories/CollectorSpec.v
theories/CollectorProofs.v
theories/CollectorMore.v
theories/PropsCollector.v
theories/Text.v
theories/TextSpec.v
theories/TextProofs.v
theories/TextMore.v
theories/PropsText.v
theories/Width.v
theories/WidthSpec.v
theories/WidthProofs.v
theories/PropsWidth.v
theories/Options.v
theories/OptionsSpec.v
theories/OptionsProofs.v
theories/PropsOptions.v
theories/Panel.v
theories/PanelSpec.v
theories/PanelProofs.v
theories/PropsPanel.v
theories/Swarm.v
theories/SwarmSpec.v
theories/SwarmProofs.v
theories/PropsSwarm.v
theories/Ids.v
theories/IdsSpec.v
theories/IdsProofs.v
theories/PropsIds.v
theories/ReqWire.v
theories/ReqWireSpec.v
theories/ReqWireProofs.v
theories/PropsReqWire.v
