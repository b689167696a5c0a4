-Q theories Verif
theories/Base.v
theories/BaseLemmas.v
theories/TopicModel.v
theories/TopicSpec.v
theories/TopicProofs.v
theories/RouteModel.v
theories/RouteSpec.v
theories/RouteProofs.v
theories/RouteHistory.v
theories/RouteInv.v
theories/RouteProps.v
theories/MsgModel.v
theories/RetainModel.v
theories/RetainSpec.v
theories/RetainProofs.v
theories/RetainProps.v
theories/PendingModel.v
theories/PendingProofs.v
theories/AliasModel.v
theories/OutModel.v
theories/OutSpec.v
theories/OutProofs.v
theories/OutInv.v
theories/OutLemmas.v
theories/OutFacts.v
theories/OutProps.v
theories/AliasSpec.v
theories/AliasProofs.v
theories/AliasProps.v
theories/GlobModel.v
theories/Sess5Model.v
theories/Sess3Model.v
theories/DelivSpec.v
theories/DelivProofs.v
theories/DelivFacts.v
theories/ConnModel.v
theories/InSpec.v
theories/InProofs.v
theories/InRun.v
theories/InRun3.v
theories/InFacts.v
theories/InProps.v
theories/RecvSpec.v
theories/RecvProofs.v
theories/SubProofs.v
theories/SubFacts.v
theories/DelivLast.v
theories/DelivProps.v
theories/LinkSpec.v
theories/LinkProofs.v
theories/LinkProofs3.v
theories/LinkFacts.v
theories/LinkProps.v
theories/ProxyModel.v
theories/ProxySpec.v
theories/ProxyProofs.v
theories/ProxyProps.v
theories/AcceptModel.v
theories/AcceptSpec.v
theories/AcceptProofs.v
theories/AcceptProps.v
theories/OnlineModel.v
theories/OnlineSpec.v
theories/OnlineProofs.v
theories/OnlineWake.v
theories/HookModel.v
theories/HookFacts.v
theories/OnlineLast.v
theories/OnlineProps.v
theories/HookLast.v
theories/HookProps.v
theories/WsModel.v
theories/WsSpec.v
theories/WsProofs.v
theories/WsLast.v
theories/WsProps.v
theories/TextModel.v
theories/TextSpec.v
theories/TextProofs.v
theories/Utf8Proofs.v
theories/PassModel.v
theories/PassSpec.v
theories/PassProofs.v
theories/PassLast.v
theories/CrashProofs.v
theories/CrashProps.v
theories/PassProps.v
theories/ScramModel.v
theories/ScramSpec.v
theories/ScramProofs.v
theories/ConfModel.v
theories/ConnSpec.v
theories/ConnProofs.v
theories/ConnLast.v
theories/ConnProps.v
theories/RegModel.v
theories/BrokerModel.v
theories/FrameProofs.v
theories/CoreProofs.v
theories/BrokerInv.v
theories/BrokerSpec.v
theories/TaskMove.v
theories/StepProofs.v
theories/RunProofs.v
theories/RegProofs.v
theories/GaugeProofs.v
theories/TimeProofs.v
theories/WillProofs.v
theories/KeepProofs.v
theories/EvolProofs.v
theories/HistProofs.v
theories/BrokerFacts.v
theories/BrokerProps.v
theories/LifeSpec.v
theories/TabProofs.v
theories/TabInv.v
theories/RouteRun.v
theories/LifeProofs.v
theories/LifeFacts.v
theories/SubsSpec.v
theories/SubsProofs.v
theories/ReplySpec.v
theories/ReplyProofs.v
theories/RecordSpec.v
theories/RecordProofs.v
theories/AccSpec.v
theories/AccProofs.v
theories/AccRecv.v
theories/ReasonSpec.v
theories/ReasonProofs.v
theories/LifeProps.v
theories/AccProps.v
theories/PanicProofs.v
theories/PanicProps.v
theories/ReasonProps.v
theories/HttpModel.v
theories/HttpSpec.v
theories/HttpProofs.v
theories/HttpProps.v
theories/DrainSpec.v
theories/DrainProofs.v
theories/DrainProps.v
theories/OrderSpec.v
theories/OrderProofs.v
theories/OrderLast.v
theories/OrderFacts.v
theories/OrderProps.v
theories/StdHookModel.v
theories/StdHookSpec.v
theories/StdHookProofs.v
theories/StdHookProps.v
theories/ListenModel.v
theories/ListenSpec.v
theories/ListenProofs.v
theories/ListenProps.v
theories/OfferSpec.v
theories/OfferProofs.v
theories/OfferProps.v
theories/GroupSpec.v
theories/GroupProofs.v
theories/GroupProps.v
theories/RaceModel.v
theories/RaceSpec.v
theories/RaceProofs.v
theories/RaceRun.v
theories/RaceLast.v
theories/RaceProps.v
theories/AdmitSpec.v
theories/AdmitProofs.v
theories/AdmitProps.v
theories/OriginSpec.v
theories/OriginRoute.v
theories/OriginSess.v
theories/OriginOut.v
theories/OriginPkt.v
theories/OriginPkt3.v
theories/OriginMono.v
theories/OriginProofs.v
theories/OriginProps.v
theories/ApartSpec.v
theories/ApartProofs.v
theories/ApartProps.v
theories/FlowSpec.v
theories/FlowProofs.v
theories/FlowLast.v
theories/FlowRead.v
theories/BadBytes.v
theories/FlowProps.v
theories/BridgeSpec.v
theories/BridgeLift.v
theories/BridgeSim.v
theories/BridgeProofs.v
theories/BridgeProps.v
theories/HoldProofs.v
theories/HoldProps.v
theories/EndSpec.v
theories/EndProofs.v
theories/EndProps.v
theories/StaySpec.v
theories/StayProofs.v
theories/StayProps.v
theories/CliSpec.v
theories/CliProofs.v
theories/CliFacts.v
theories/CliProps.v
theories/StallSpec.v
theories/StallProofs.v
theories/StallProps.v
theories/DoneProofs.v
theories/DoneProps.v
theories/GetSpec.v
theories/GetProofs.v
theories/GetProps.v
theories/WillWaySpec.v
theories/WillWayProofs.v
theories/WillWayProps.v
theories/RetRunSpec.v
theories/RetRunProofs.v
theories/RetRunProps.v
theories/RetWaySpec.v
theories/RetWayProofs.v
theories/RetWayProps.v
theories/ShareSpec.v
theories/ShareProofs.v
theories/ShareProps.v
theories/LeaveSpec.v
theories/LeaveProofs.v
theories/LeaveRun.v
theories/LeaveProps.v
theories/LivesProofs.v
theories/LivesRet.v
theories/LivesProps.v
theories/AckSpec.v
theories/AckProofs.v
theories/AckProps.v
theories/ArriveSpec.v
theories/ArriveProofs.v
theories/Arrive2Proofs.v
theories/ArriveProps.v
theories/PubOrderSpec.v
theories/PubOrderProofs.v
theories/PubOrderProps.v
theories/PubZeroSpec.v
theories/PubZeroProofs.v
theories/PubZeroProps.v
theories/FullSpec.v
theories/FullProofs.v
theories/FullProps.v
theories/AwaySpec.v
theories/AwayProofs.v
theories/AwayProps.v
