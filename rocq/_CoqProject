-Q theories Verif
theories/Py.v
theories/NumModel.v
theories/ClassifierModel.v
theories/TrainSpec.v
theories/TrainProofs.v
theories/ScoreProofs.v
theories/TrainProps.v
theories/SortProofs.v
theories/ScoreSpec.v
theories/ClueProofs.v
theories/TileProofs.v
theories/RealModel.v
theories/RealSpec.v
theories/RealProofs.v
theories/ExactProofs.v
theories/ApiProofs.v
theories/ScoreProps.v
theories/ShelveModel.v
theories/ShelveSpec.v
theories/ShelveProofs.v
theories/ShelveRunProofs.v
theories/ShelveCrashProofs.v
theories/ShelveApiProofs.v
theories/ShelveProps.v
theories/PickleModel.v
theories/PickleSpec.v
theories/PickleProofs.v
theories/LockProofs.v
theories/RaceProofs.v
theories/PickleProps.v
theories/CdbModel.v
theories/CdbSpec.v
theories/CdbProofs.v
theories/CdbClassModel.v
theories/CdbClassSpec.v
theories/CdbClassProofs.v
theories/CdbProps.v
theories/CacheModel.v
theories/CacheSpec.v
theories/CacheProofs.v
theories/CorpusModel.v
theories/CorpusSpec.v
theories/CorpusProofs.v
theories/CorpusProps.v
theories/LevelModel.v
theories/MessageModel.v
theories/MessageSpec.v
theories/MessageProofs.v
theories/TextProofs.v
theories/LevelProofs.v
theories/MessageCases.v
theories/MessageProps.v
theories/NetModel.v
theories/NetSpec.v
theories/NetProofs.v
theories/IpProofs.v
theories/DnsProofs.v
theories/NetCases.v
theories/NetProps.v
theories/SlurpModel.v
theories/SlurpSpec.v
theories/SlurpProofs.v
theories/SlurpProps.v
theories/Regex.v
theories/RegexSpec.v
theories/RegexProofs.v
theories/StripModel.v
theories/StripSpec.v
theories/StripProofs.v
theories/StripCases.v
theories/StripProps.v
theories/TokenModel.v
theories/TokenSpec.v
theories/TokenProofs.v
theories/TokenCases.v
theories/TokenProps.v
theories/RaiseModel.v
theories/RaiseProofs.v
theories/RaiseProps.v
theories/HeadModel.v
theories/HeadSpec.v
theories/HeadProofs.v
theories/HeadFieldProofs.v
theories/HeadScanProofs.v
theories/HeadCallProofs.v
theories/HeadCases.v
theories/HeadProps.v
theories/MailSpec.v
theories/MailProofs.v
theories/MailCases.v
theories/MailProps.v
theories/OptModel.v
theories/OptSpec.v
theories/OptHeadProofs.v
theories/OptBodyProofs.v
theories/OptProofs.v
theories/OptCases.v
theories/OptProps.v
theories/FloatProofs.v
theories/FloatApiProofs.v
theories/FloatProps.v
theories/ObserveModel.v
theories/ObserveSpec.v
theories/ObserveProofs.v
theories/ObserveProps.v
theories/FetchModel.v
theories/FetchProofs.v
theories/FetchCases.v
theories/FetchProps.v
theories/CopyModel.v
theories/CopyProofs.v
theories/CopyProps.v
theories/ReadModel.v
theories/ReadSpec.v
theories/ReadProofs.v
theories/ReadProps.v
theories/TreeModel.v
theories/TreeSpec.v
theories/TreeProofs.v
theories/TreeCases.v
theories/TreeProps.v
theories/OnceSpec.v
theories/OnceProofs.v
theories/OnceCases.v
theories/OnceProps.v
theories/SeenSpec.v
theories/SeenProofs.v
theories/SidedSpec.v
theories/SidedProofs.v
theories/SeenCases.v
theories/SeenProps.v
theories/MailboxSpec.v
theories/MailboxProofs.v
theories/DeliverProofs.v
theories/MailboxCases.v
theories/MailboxProps.v
theories/LayoutSpec.v
theories/LayoutProofs.v
theories/LayoutCases.v
theories/LayoutProps.v
theories/PadProofs.v
theories/PadCases.v
theories/PadProps.v
theories/SwaySpec.v
theories/SwayProofs.v
theories/PushProofs.v
theories/SwayCases.v
theories/SwayProps.v
theories/MachineProofs.v
theories/MachineCases.v
theories/MachineProps.v
theories/FormulaProofs.v
theories/LeanSpec.v
theories/LeanProofs.v
theories/LeanCases.v
theories/LeanProps.v
theories/PersistProofs.v
theories/PersistCases.v
theories/PersistProps.v
theories/ShareModel.v
theories/ShareSpec.v
theories/ShareSoloProofs.v
theories/ShareReadProofs.v
theories/ShareProofs.v
theories/ShareWorldProofs.v
theories/ShareLoadProofs.v
theories/ShareCases.v
theories/ShareProps.v
theories/OutModel.v
theories/OutSpec.v
theories/OutProofs.v
theories/OutCases.v
theories/OutProps.v
theories/GrowSpec.v
theories/GrowProofs.v
theories/GrowCases.v
theories/GrowProps.v
theories/MirrorSpec.v
theories/MirrorProofs.v
theories/MirrorCases.v
theories/MirrorProps.v
theories/LifeModel.v
theories/LifeSpec.v
theories/LifeProofs.v
theories/LifeProps.v
theories/DrownSpec.v
theories/DrownProofs.v
theories/DrownCases.v
theories/DrownProps.v
theories/JoinSpec.v
theories/JoinProofs.v
theories/JoinCases.v
theories/JoinProps.v
theories/PairSpec.v
theories/PairProofs.v
theories/PairCases.v
theories/PairProps.v
theories/ExcessSpec.v
theories/ExcessProofs.v
theories/BytesProofs.v
theories/ExcessProps.v
theories/InkSpec.v
theories/InkProofs.v
theories/InkCases.v
theories/InkProps.v
theories/CdbTornSpec.v
theories/CdbTornProofs.v
theories/CdbTornProps.v
theories/OriginSpec.v
theories/OriginProofs.v
theories/OriginCases.v
theories/OriginProps.v
theories/EntryModel.v
theories/EntrySpec.v
theories/EntryProofs.v
theories/EntryProps.v
theories/WriteSpec.v
theories/WriteProofs.v
theories/WriteCases.v
theories/WriteProps.v
theories/PairNameSpec.v
theories/PairNameProofs.v
theories/PairNameProps.v
theories/EdgeSpec.v
theories/EdgeProofs.v
theories/EdgeProps.v
theories/Utf8Spec.v
theories/Utf8Proofs.v
theories/Utf8Props.v
theories/HistProofs.v
theories/HistProps.v
theories/RetrieveSpec.v
theories/RetrieveProofs.v
theories/RetrieveProps.v
theories/TidyProofs.v
theories/TidyProps.v
theories/TornProofs.v
theories/TornProps.v
theories/HalfSpec.v
theories/HalfProofs.v
theories/HalfProps.v
theories/SeqSpec.v
theories/SeqProofs.v
theories/SeqProps.v
theories/LogModel.v
theories/LogProofs.v
theories/LogCases.v
theories/LogProps.v
theories/PairReprSpec.v
theories/PairReprProofs.v
theories/PairReprProps.v
theories/PairOnceSpec.v
theories/PairOnceProofs.v
theories/PairOnceProps.v
theories/SoleSpec.v
theories/SoleProofs.v
theories/SoleProps.v
theories/CdbWriteModel.v
theories/CdbWriteSpec.v
theories/CdbWriteProofs.v
theories/CdbWriteProps.v
