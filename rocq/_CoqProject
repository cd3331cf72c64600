-Q theories Verif
theories/Base.v
theories/PlaceModel.v
theories/PlaceSpec.v
theories/PlaceProofs.v
theories/PlaceProps.v
theories/NameModel.v
theories/NameSpec.v
theories/NameProofs.v
theories/NameProps.v
theories/AcqModel.v
theories/AcqSpec.v
theories/AcqProofs.v
theories/AcqInv.v
theories/AcqThms.v
theories/AcqAny.v
theories/AcqProps.v
theories/StrOrder.v
theories/FwModel.v
theories/FwSpec.v
theories/FwProofs.v
theories/FwThms.v
theories/FwKeep.v
theories/FwProps.v
theories/TimeoutModel.v
theories/TimeoutProps.v
theories/PoolModel.v
theories/PoolSpec.v
theories/PoolProofs.v
theories/PoolThms.v
theories/PoolProps.v
theories/QueueModel.v
theories/QueueSpec.v
theories/QueueProofs.v
theories/QueueProps.v
theories/PluginModel.v
theories/PluginSpec.v
theories/PluginProofs.v
theories/PluginProps.v
theories/CtrlModel.v
theories/CtrlSpec.v
theories/CtrlProofs.v
theories/CtrlProps.v
theories/WorkerModel.v
theories/WorkerSpec.v
theories/WorkerProofs.v
theories/WorkerProps.v
theories/DecModel.v
theories/DecSpec.v
theories/DecProofs.v
theories/DecInv.v
theories/DecProps.v
theories/LoopModel.v
theories/LoopSpec.v
theories/LoopProofs.v
theories/LoopImage.v
theories/LoopProps.v
theories/SimModel.v
theories/SimProps.v
theories/ShmModel.v
theories/ShmProps.v
theories/ReactorModel.v
theories/ReactorSpec.v
theories/ReactorProofs.v
theories/ReactorProps.v
theories/JsonModel.v
theories/JsonSpec.v
theories/JsonProofs.v
theories/JsonProps.v
theories/JsonUpdate.v
theories/UpdateProps.v
theories/MessageSpec.v
theories/MessageProps.v
theories/FrameModel.v
theories/TypeProps.v
theories/GapModel.v
theories/GapSpec.v
theories/GapProofs.v
theories/GapProps.v
theories/AdjModel.v
theories/AdjSpec.v
theories/AdjProps.v
theories/LiveModel.v
theories/LiveSpec.v
theories/LiveProofs.v
theories/ListText.v
theories/LiveProps.v
theories/BloscModel.v
theories/BloscSpec.v
theories/BloscProps.v
theories/JsonTextModel.v
theories/JsonTextSpec.v
theories/JsonTextProofs.v
theories/KafkaModel.v
theories/KafkaSpec.v
theories/KafkaProps.v
theories/PortModel.v
theories/PortSpec.v
theories/PortProps.v
theories/EqualModel.v
theories/EqualSpec.v
theories/EqualProps.v
theories/RcvModel.v
theories/RcvSpec.v
theories/RcvProofs.v
theories/RcvReply.v
theories/RcvInv.v
theories/RcvChan.v
theories/RcvThread.v
theories/RcvSafe.v
theories/RcvCount.v
theories/RcvApply.v
theories/RcvCtrl.v
theories/RcvDone.v
theories/RcvAsk.v
theories/RcvProps.v
theories/RcvCases.v
theories/ParModel.v
theories/ParSpec.v
theories/ParProofs.v
theories/ParProps.v
theories/JsonReadModel.v
theories/JsonDoubleModel.v
theories/JsonReadSpec.v
theories/JsonReadProofs.v
theories/JsonReadStr.v
theories/JsonReadValue.v
theories/JsonAccept.v
theories/JsonDoubleProofs.v
theories/JsonRoundSpec.v
theories/JsonRound.v
theories/JsonReadProps.v
theories/JsonNearSpec.v
theories/JsonNear.v
theories/JsonNearText.v
theories/JsonNearProps.v
theories/PtrSpec.v
theories/PtrProofs.v
theories/PtrProps.v
theories/OptModel.v
theories/OptSpec.v
theories/OptProofs.v
theories/OptMain.v
theories/OptProps.v
theories/JsonMachineProps.v
theories/PrcModel.v
theories/PrcSpec.v
theories/PrcProofs.v
theories/PrcMoves.v
theories/PrcExec.v
theories/PrcEnds.v
theories/PrcProps.v
theories/PrcReply.v
theories/PrcAsk.v
theories/PrcLive.v
theories/PrcAskProps.v
theories/PrcSetSpec.v
theories/PrcSet.v
theories/PrcKeep.v
theories/PrcSetProps.v
theories/CfgModel.v
theories/CfgSpec.v
theories/CfgProofs.v
theories/CfgReply.v
theories/FwcModel.v
theories/FwcSpec.v
theories/FwcProofs.v
theories/FwcSet.v
theories/FwcLive.v
theories/FwcAsk.v
theories/FwcRefine.v
theories/FwcSane.v
theories/FwcRestore.v
theories/FwcProps.v
theories/HostSpec.v
theories/HostKeep.v
theories/HostAccept.v
theories/HostAgain.v
theories/HostProofs.v
theories/HostProps.v
theories/TcpModel.v
theories/TcpSpec.v
theories/TcpProofs.v
theories/TcpProps.v
theories/PipeModel.v
theories/PipeSpec.v
theories/PipeProofs.v
theories/PipeOrder.v
theories/PipeFlow.v
theories/PipeEnds.v
theories/PipeProps.v
theories/ReplayModel.v
theories/ReplaySpec.v
theories/ReplayProofs.v
theories/ReplayProps.v
theories/EndSpec.v
theories/EndModel.v
theories/EndFiles.v
theories/EndNode.v
theories/EndProps.v
theories/PcfModel.v
theories/PcfSpec.v
theories/PcfProofs.v
theories/PcfFit.v
theories/PcfAsk.v
theories/PcfRestore.v
theories/PcfProps.v
theories/ShipSpec.v
theories/ShipProofs.v
theories/ShipProps.v
theories/AppModel.v
theories/AppSpec.v
theories/AppProofs.v
theories/AppProps.v
theories/RappModel.v
theories/RappSpec.v
theories/RappProofs.v
theories/RappProps.v
theories/SmcModel.v
theories/SmcSpec.v
theories/SmcProofs.v
theories/SmcRuns.v
theories/SmcProps.v
theories/DogModel.v
theories/DogSpec.v
theories/DogProofs.v
theories/DogTime.v
theories/DogProps.v
theories/LifeModel.v
theories/LifeSpec.v
theories/LifeProofs.v
theories/LifeWoken.v
theories/LifeProps.v
theories/MetaModel.v
theories/MetaSpec.v
theories/MetaProps.v
theories/RxlModel.v
theories/RxlSpec.v
theories/RxlProps.v
theories/PollModel.v
theories/PollSpec.v
theories/PollProofs.v
theories/PollProps.v
theories/IpcModel.v
theories/IpcSpec.v
theories/IpcProofs.v
theories/IpcProps.v
theories/SappModel.v
theories/SappSpec.v
theories/SappProofs.v
theories/SappProps.v
theories/TagSpec.v
theories/TagProofs.v
theories/TagProps.v
theories/HdsModel.v
theories/HdsSpec.v
theories/HdsProps.v
theories/ZrxModel.v
theories/ZrxSpec.v
theories/ZrxProps.v
theories/PaceModel.v
theories/PaceSpec.v
theories/PaceProps.v
theories/SwmrModel.v
theories/SwmrSpec.v
theories/SwmrProps.v
theories/ClsModel.v
theories/ClsSpec.v
theories/ClsProps.v
theories/MadeProps.v
theories/PortSignSpec.v
theories/PortSignProps.v
