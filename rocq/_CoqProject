-Q theories Verif

theories/RelMapModel.v
theories/RelMapSpec.v
theories/RelMapProofs.v
theories/VMapModel.v
theories/VMapSpec.v
theories/VMapProofs.v
theories/VNetModel.v
theories/VNetProofs.v
theories/IdModel.v
theories/IdProofs.v
theories/TopicModel.v
theories/TopicProofs.v
theories/ConnModel.v
theories/ConnSpec.v
theories/ConnProofs.v
theories/ConnProofs2.v
theories/ConnProofs3.v
theories/PropertiesMaps.v
theories/PropertiesConn.v
theories/ConnProofs4.v
theories/MsgModel.v
theories/RouteModel.v
theories/RouteProofs.v
theories/RouteSpec.v
theories/RouteProofs2.v
theories/TaskModel.v
theories/TaskProofs.v
theories/TaskOrder.v
theories/TaskHandles.v
theories/TaskIsolation.v
theories/TaskGuarded.v
theories/TaskCheck.v
theories/TaskEffects.v
theories/PropertiesRoute.v
theories/PropertiesTask.v
theories/PropertiesEffects.v
theories/DecModel.v
theories/DecProofs.v
theories/DiscModel.v
theories/DiscSpec.v
theories/DiscProofs.v
theories/DiscProofs2.v
theories/DiscProofs3.v
theories/PropertiesDisc.v
theories/AuthModel.v
theories/AuthSpec.v
theories/AuthProofs.v
theories/DialModel.v
theories/ShakeModel.v
theories/ShakeProofs.v
theories/PropertiesAuth.v
theories/SyncSpec.v
theories/TopicSyncProofs.v
theories/SyncModel.v
theories/DirSyncProofs.v
theories/DirSeqProofs.v
theories/PropertiesSync.v
theories/WireModel.v
theories/WireSpec.v
theories/WireProofs.v
theories/PoolModel.v
theories/PoolSpec.v
theories/PoolProofs.v
theories/PropertiesWire.v
theories/ClientModel.v
theories/ClientSpec.v
theories/ClientProofs.v
theories/ClientSubs.v
theories/ClientClose.v
theories/ClientMore.v
theories/ClientStuck.v
theories/PropertiesClient.v
theories/NetModel.v
theories/NetProofs.v
theories/NetOrigin.v
theories/NetComplete.v
theories/NetSynced.v
theories/NetConcurrent.v
theories/NetCheck.v
theories/NetDelivery.v
theories/PropertiesNet.v
theories/CodecModel.v
theories/CodecSafe.v
theories/CodecRound.v
theories/CodecMsg.v
theories/Utf8Spec.v
theories/Utf8Proofs.v
theories/PropertiesCodec.v
theories/FlowModel.v
theories/FlowSpec.v
theories/FlowProofs.v
theories/PropertiesFlow.v
theories/MemModel.v
theories/MemSpec.v
theories/MemProofs.v
theories/PropertiesMem.v
theories/TaskSync.v
theories/NetSettle.v
theories/NetSettleDir.v
theories/NetSettleAll.v
theories/PropertiesSettle.v
theories/NetRounds.v
theories/NetRest.v
theories/PropertiesRest.v
theories/LoginModel.v
theories/LoginSpec.v
theories/LoginProofs.v
theories/LoginSteps.v
theories/LoginOrigin.v
theories/LoginComplete.v
theories/LoginSound.v
theories/LoginClaims.v
theories/PropertiesLogin.v
theories/HeartModel.v
theories/HeartSpec.v
theories/HeartProofs.v
theories/PropertiesHeart.v
theories/EndModel.v
theories/EndProofs.v
theories/PropertiesEnd.v
theories/SystemModel.v
theories/SystemSpec.v
theories/SystemProofs.v
theories/StaySpec.v
theories/NetStay.v
theories/SystemLive.v
theories/PropertiesSystem.v
theories/WhiteModel.v
theories/WhiteSpec.v
theories/WhiteProofs.v
theories/PropertiesWhite.v
theories/LifeModel.v
theories/LifeSpec.v
theories/LifeProofs.v
theories/PropertiesLife.v
theories/ServerModel.v
theories/PropertiesServer.v
theories/RetryModel.v
theories/PropertiesRetry.v
theories/LatencyModel.v
theories/TlsModel.v
theories/StartModel.v
theories/PropertiesMisc.v
theories/LinkSpec.v
theories/LinkProofs.v
theories/PropertiesLink.v
theories/ReturnSpec.v
theories/ReturnProofs.v
theories/PropertiesReturn.v
theories/MeshModel.v
theories/MeshSpec.v
theories/MeshProofs.v
theories/PropertiesMesh.v
theories/ChoiceModel.v
theories/ChoiceSpec.v
theories/ChoiceProofs.v
theories/PropertiesChoice.v
theories/FifoSpec.v
theories/FifoProofs.v
theories/FifoComplete.v
theories/PropertiesFifo.v
theories/BusySpec.v
theories/BusyProofs.v
theories/BusyProofs2.v
theories/BusyProofs3.v
theories/PropertiesBusy.v
theories/ClockModel.v
theories/ClockProofs.v
theories/ClockProofs2.v
theories/PropertiesClock.v
theories/PaceModel.v
theories/PaceSpec.v
theories/PaceProofs.v
theories/PaceProofs2.v
theories/PropertiesPace.v
theories/MoveSpec.v
theories/MoveProofs.v
theories/PropertiesMove.v
theories/LinkupSpec.v
theories/LinkupProofs.v
theories/LinkupProofs2.v
theories/PropertiesLinkup.v
theories/HandleModel.v
theories/HandleSpec.v
theories/HandleProofs.v
theories/PropertiesHandle.v
theories/LoadModel.v
theories/LoadSpec.v
theories/LoadProofs.v
theories/LoadProofs2.v
theories/PropertiesLoad.v
theories/CountModel.v
theories/CountSpec.v
theories/CountProofs.v
theories/CountProofs2.v
theories/PropertiesCount.v
theories/HomeSpec.v
theories/HomeProofs.v
theories/PropertiesHome.v
theories/InformSpec.v
theories/HomeProofs2.v
theories/PropertiesInform.v
theories/SkewModel.v
theories/SkewProofs.v
theories/PropertiesSkew.v
theories/SkewHeartProofs.v
theories/PropertiesSkewHeart.v
theories/LaunchModel.v
theories/LaunchSpec.v
theories/LaunchProofs.v
theories/PropertiesLaunch.v
theories/FailModel.v
theories/FailSpec.v
theories/PropertiesFail.v
theories/PropertiesSkewFail.v
theories/OpenModel.v
theories/OpenSpec.v
theories/PropertiesOpen.v
theories/ReceiveSpec.v
theories/PropertiesReceive.v
