-Q theories Verif
theories/GoBase.v
theories/SetModel.v
theories/DialogueModel.v
theories/StoreModel.v
theories/DialogueSpec.v
theories/DialogueDemo.v
theories/DialogueProofs.v
theories/StoreProofs.v
theories/StoreInv.v
theories/TraceProofs.v
theories/DialogueLemmas.v
theories/TermProofs.v
theories/StoreLemmas.v
theories/DialogueProps.v
theories/StoreProps.v
theories/SetProps.v
theories/Bytes.v
theories/Utf8.v
theories/LabelModel.v
theories/LabelProofs.v
theories/LabelProps.v
theories/WireModel.v
theories/ProtoModel.v
theories/WireProofs.v
theories/MessageModel.v
theories/ProtoProofs.v
theories/MessageProofs.v
theories/ProtoProps.v
theories/FrameModel.v
theories/FrameProofs.v
theories/FrameProps.v
theories/RecordFileModel.v
theories/RecordFileProofs.v
theories/RecordFileProps.v
theories/HexModel.v
theories/CryptoModel.v
theories/PorModel.v
theories/CryptoProofs.v
theories/CryptoProps.v
theories/PorProps.v
theories/AcnModel.v
theories/AcnProps.v
theories/AckModel.v
theories/AckProps.v
theories/DelegateModel.v
theories/DelegateProofs.v
theories/DelegateProps.v
theories/MailboxModel.v
theories/MailboxProps.v
theories/RouteModel.v
theories/RouteProps.v
theories/PeerProps.v
theories/RegistryModel.v
theories/RegistryProps.v
theories/ClientModel.v
theories/ClientProps.v
theories/AgentModel.v
theories/AgentProps.v
theories/PipeModel.v
theories/PipeProps.v
theories/MonitorModel.v
theories/MonitorProps.v
theories/ConfigModel.v
theories/ConfigProps.v
theories/ShutdownModel.v
theories/ShutdownProps.v
theories/EndProps.v
theories/StartModel.v
theories/StartProps.v
theories/FindProps.v
theories/KeyModel.v
theories/KeyProps.v
theories/LifeModel.v
theories/LifeProps.v
theories/AcceptModel.v
theories/AcceptProps.v
theories/SellerModel.v
theories/SellerProofs.v
theories/SellerProps.v
theories/MetricsModel.v
theories/MetricsProps.v
theories/ServeModel.v
theories/ServeProps.v
theories/LockModel.v
theories/LockProps.v
theories/WaitModel.v
theories/WaitProps.v
theories/ApiModel.v
theories/ApiProps.v
theories/AskModel.v
theories/AskProps.v
theories/RaceModel.v
theories/RaceProofs.v
theories/RaceProps.v
theories/MoveModel.v
theories/MoveProps.v
theories/SlowModel.v
theories/SlowProps.v
theories/StatsModel.v
theories/StatsProps.v
theories/LeftProps.v
theories/FormatProps.v
theories/FipaProps.v
theories/Base64Model.v
theories/Base64Props.v
theories/SigProps.v
theories/CrashProps.v
theories/LabelRoundProps.v
theories/NamedProps.v
theories/CreateProps.v
theories/AgreeProps.v
theories/AgreeRefProps.v
theories/AgreeAllProps.v
theories/BechProps.v
theories/JsonProps.v
