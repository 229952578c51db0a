-Q theories Verif
theories/AdapterModel.v
theories/AdapterProofs.v
theories/AdapterProps.v
theories/AdapterSpec.v
theories/AdapterTables.v
theories/AdapterWorld.v
theories/AddrModel.v
theories/AddrProps.v
theories/AggConcModel.v
theories/AggConcProps.v
theories/AggConcSpec.v
theories/AggModel.v
theories/AggProofs.v
theories/AggProofs2.v
theories/AggProps.v
theories/AggSpec.v
theories/AggTotal.v
theories/AggWindow.v
theories/AttrModel.v
theories/AttrProofs.v
theories/AttrProps.v
theories/AttrSpec.v
theories/Base.v
theories/BreakModel.v
theories/BreakProps.v
theories/BreakSpec.v
theories/CallModel.v
theories/CallProofs.v
theories/CallProps.v
theories/CallSpec.v
theories/CompareModel.v
theories/CompareProofs.v
theories/CompareProps.v
theories/ConfModel.v
theories/ConfProps.v
theories/ConfSpec.v
theories/ConnFlowModel.v
theories/ConnFlowProofs.v
theories/ConnFlowProps.v
theories/ConnFlowSpec.v
theories/ConnectModel.v
theories/ConnectProps.v
theories/ConnectSpec.v
theories/ConntrackModel.v
theories/ConntrackProofs.v
theories/ConntrackProps.v
theories/ConntrackSpec.v
theories/CpuDecodeModel.v
theories/CpuDecodeProps.v
theories/CpuModel.v
theories/CpuProofs.v
theories/CpuProps.v
theories/CpuSpec.v
theories/CpuWorld.v
theories/CtStatModel.v
theories/CtStatProofs.v
theories/CtStatProps.v
theories/CtStatSpec.v
theories/CtrlModel.v
theories/CtrlProps.v
theories/CtrlSpec.v
theories/Decimal.v
theories/DetectModel.v
theories/DetectProofs.v
theories/DetectProps.v
theories/DetectSpec.v
theories/DnsModel.v
theories/DnsProofs.v
theories/DnsProps.v
theories/DnsSpec.v
theories/DnsUdpModel.v
theories/DnsUdpProps.v
theories/DnsUdpSpec.v
theories/DubboModel.v
theories/DubboProps.v
theories/DubboSpec.v
theories/EnrichHist.v
theories/EnrichLive.v
theories/EnrichModel.v
theories/EnrichProofs.v
theories/EnrichProps.v
theories/EnrichSpec.v
theories/EsModel.v
theories/EsProps.v
theories/EsSpec.v
theories/EventModel.v
theories/EventProps.v
theories/EvtTextModel.v
theories/EvtTextProps.v
theories/FactoryModel.v
theories/FileModel.v
theories/FileProofs.v
theories/FileProps.v
theories/FileSpec.v
theories/FlowModel.v
theories/FlowProofs.v
theories/FlowProofs2.v
theories/FlowProofs3.v
theories/FlowProps.v
theories/FlowSpec.v
theories/FlushModel.v
theories/FlushProps.v
theories/GroupModel.v
theories/GroupProps.v
theories/HttpModel.v
theories/HttpProofs.v
theories/HttpProps.v
theories/HttpSpec.v
theories/InitModel.v
theories/InitProps.v
theories/JsonModel.v
theories/JsonProps.v
theories/JsonSpec.v
theories/K8sConcModel.v
theories/K8sConcProps.v
theories/K8sInv.v
theories/K8sIter.v
theories/K8sModel.v
theories/K8sNodeProps.v
theories/K8sOwnerProps.v
theories/K8sProofs.v
theories/K8sProps.v
theories/K8sServiceAddr.v
theories/K8sServiceHist.v
theories/K8sServiceInv.v
theories/K8sServiceProofs.v
theories/K8sServiceProps.v
theories/K8sServiceSpec.v
theories/K8sSpec.v
theories/K8sWorkloadHist.v
theories/K8sWorkloadProofs.v
theories/K8sWorkloadProps.v
theories/K8sWorkloadSpec.v
theories/KafkaModel.v
theories/KafkaProps.v
theories/KafkaSpec.v
theories/KeyModel.v
theories/KeyProps.v
theories/LabelNames.v
theories/LifeModel.v
theories/LifeProps.v
theories/LifeSpec.v
theories/LockModel.v
theories/LockProofs.v
theories/LockProps.v
theories/LockSpec.v
theories/LogModel.v
theories/LogProps.v
theories/ModuleModel.v
theories/ModuleProps.v
theories/MpcModel.v
theories/MpcProps.v
theories/MpcSpec.v
theories/MsgModel.v
theories/MysqlModel.v
theories/MysqlProofs.v
theories/MysqlProps.v
theories/MysqlSpec.v
theories/NetModel.v
theories/NetParsers.v
theories/NetProofs.v
theories/NetProofs2.v
theories/NetProofs3.v
theories/NetProofs4.v
theories/NetProps.v
theories/NetSpec.v
theories/NetlinkModel.v
theories/NetlinkProofs.v
theories/NetlinkProps.v
theories/NetlinkSpec.v
theories/NsModel.v
theories/NsProps.v
theories/NsSpec.v
theories/OtelModel.v
theories/OtelProofs.v
theories/OtelProofs2.v
theories/OtelProps.v
theories/OtelSpec.v
theories/PairConcModel.v
theories/PairConcProps.v
theories/PairConcSeq.v
theories/PairModel.v
theories/PairProofs.v
theories/PairProps.v
theories/PairSpec.v
theories/PipeModel.v
theories/PipeProps.v
theories/PoolModel.v
theories/PoolProps.v
theories/ProfModel.v
theories/ProfProofs.v
theories/ProfProps.v
theories/ProfSpec.v
theories/PromModel.v
theories/PromProps.v
theories/PromScrapeProps.v
theories/PromSpec.v
theories/ProvModel.v
theories/ProvProps.v
theories/ReaderProofs.v
theories/ReaderProps.v
theories/ReaderSpec.v
theories/RecordModel.v
theories/RecordParsers.v
theories/RecordProofs.v
theories/RecordProps.v
theories/RecordSpec.v
theories/RecvModel.v
theories/RecvProofs.v
theories/RecvProps.v
theories/RecvSpec.v
theories/RedisModel.v
theories/RedisProofs.v
theories/RedisProps.v
theories/RedisSpec.v
theories/RocketModel.v
theories/RocketProps.v
theories/RocketSpec.v
theories/RouteModel.v
theories/RouteProps.v
theories/SampleModel.v
theories/SampleProps.v
theories/SegJsonModel.v
theories/SegJsonProps.v
theories/ShareProps.v
theories/SnapInv.v
theories/SnapModel.v
theories/SnapProofs.v
theories/SnapProps.v
theories/SnapSpec.v
theories/SocketModel.v
theories/SocketProps.v
theories/SqlModel.v
theories/SqlProofs.v
theories/SqlProps.v
theories/SqlSpec.v
theories/StopProofs.v
theories/StopProps.v
theories/StopSpec.v
theories/StreamModel.v
theories/StreamProps.v
theories/StreamSpec.v
theories/TcpModel.v
theories/TcpProps.v
theories/TcpSpec.v
theories/TextModel.v
theories/TextProofs.v
theories/TextProps.v
theories/TextSpec.v
theories/TriggerModel.v
theories/TriggerProps.v
theories/TriggerSpec.v
theories/UdpConcModel.v
theories/UdpConcProps.v
theories/UdpModel.v
theories/UdpProofs.v
theories/UdpProps.v
theories/UdpSpec.v
theories/UrlModel.v
theories/UrlProofs.v
theories/UrlProps.v
theories/UrlSpec.v
theories/WatchModel.v
theories/WatchProofs.v
theories/WatchProps.v
theories/WorkFlowModel.v
theories/WorkFlowProps.v
theories/WorkFlowSpec.v
