-Q theories Verif
theories/Base.v
theories/ListModel.v
theories/ListSpec.v
theories/ListProof.v
theories/ListProps.v
theories/TableModel.v
theories/TableSpec.v
theories/TableProof.v
theories/TableProps.v
theories/SortModel.v
theories/SortSpec.v
theories/SortProof.v
theories/CompareModel.v
theories/CompareProof.v
theories/SortProps.v
theories/SyncModel.v
theories/SyncSpec.v
theories/EditProof.v
theories/SyncProof.v
theories/FastukkProof.v
theories/FastukkSync.v
theories/FastukkProps.v
theories/LongestProof.v
theories/HeurProof.v
theories/HeurProps.v
theories/TransProof.v
theories/TransProps.v
theories/CLib.v
theories/Utf8Model.v
theories/TextModel.v
theories/TextSpec.v
theories/Utf8Proof.v
theories/TextProof.v
theories/CLibProof.v
theories/TextIO.v
theories/TextProps.v
theories/CharclassModel.v
theories/CharclassSpec.v
theories/CharclassProof.v
theories/CharclassProps.v
theories/AccModel.v
theories/AccSpec.v
theories/SumProof.v
theories/AccProof.v
theories/AccCount.v
theories/AccTop.v
theories/AccProps.v
theories/ReportModel.v
theories/ReportSpec.v
theories/ReportProof.v
theories/ReportSafe.v
theories/AccrptModel.v
theories/AccrptSpec.v
theories/AccrptChar.v
theories/AccrptFig.v
theories/AccrptProof.v
theories/AccrptTop.v
theories/AccrptAcc.v
theories/AccrptSafe.v
theories/AccrptProps.v
theories/LcsModel.v
theories/LcsSpec.v
theories/LcsProof.v
theories/LcsTop.v
theories/WacModel.v
theories/WacSpec.v
theories/WacProof.v
theories/WacProps.v
theories/WacrptModel.v
theories/WacrptSpec.v
theories/WacrptProof.v
theories/WacrptTop.v
theories/VerdictProof.v
theories/WacrptSafe.v
theories/WacrptProps.v
theories/EdoModel.v
theories/EdoSpec.v
theories/EdoProof.v
theories/EdoProps.v
theories/WordTable.v
theories/WordModel.v
theories/WordSpec.v
theories/WordProof.v
theories/WordProps.v
theories/StopModel.v
theories/StopProps.v
theories/FreqModel.v
theories/FreqSpec.v
theories/FreqProps.v
theories/EditopModel.v
theories/EditopSpec.v
theories/EditopProof.v
theories/EditopProps.v
theories/GreedySpec.v
theories/GreedyProof.v
theories/GreedyProps.v
theories/VoteModel.v
theories/VoteSpec.v
theories/VoteProof.v
theories/VoteSame.v
theories/VoteProps.v
theories/VoteSelModel.v
theories/VoteSelSpec.v
theories/VoteSelProof.v
theories/VoteSelProps.v
theories/PctModel.v
theories/PctSpec.v
theories/PctProof.v
theories/VoteFloatModel.v
theories/HalfProof.v
theories/VoteFloatProof.v
theories/VoteFloatProps.v
theories/NgramModel.v
theories/NgramSpec.v
theories/NgramKeys.v
theories/NgramProps.v
theories/DoubleModel.v
theories/DoubleProof.v
theories/DistModel.v
theories/DistSpec.v
theories/DistProps.v
theories/CiModel.v
theories/CiProof.v
theories/CiSpec.v
theories/CiError.v
theories/CiProps.v
theories/NonstopModel.v
theories/NonstopProps.v
theories/GroupModel.v
theories/GroupProps.v
theories/UtilModel.v
theories/UtilProps.v
theories/ArgsProps.v
theories/ReadProof.v
theories/SynctextModel.v
theories/SynctextSpec.v
theories/SynctextProof.v
theories/SynctextUniq.v
theories/SynctextProps.v
theories/EditopDebugModel.v
theories/TraceSpec.v
theories/TraceProof.v
theories/TraceProps.v
theories/MainModel.v
theories/MainSpec.v
theories/MainProof.v
theories/MainProps.v
theories/MainWacProps.v
theories/MainProgProps.v
theories/MainPipeProps.v
theories/PctProps.v
theories/MainTextSpec.v
theories/MainTextProps.v
theories/MainVoteProps.v
theories/MainEditProps.v
theories/ReproProof.v
theories/WacSame.v
theories/ReproSpec.v
theories/ReproProps.v
theories/MainIoModel.v
theories/CrashSpec.v
theories/CrashProof.v
theories/CrashProps.v
theories/ClientModel.v
theories/ClientSpec.v
theories/ClientProof.v
theories/ClientProps.v
theories/MetricSpec.v
theories/MetricProof.v
theories/MetricProps.v
theories/MemTextModel.v
theories/MemTextSpec.v
theories/MemTextProof.v
theories/MemWordModel.v
theories/MemWordSpec.v
theories/MemWordProof.v
theories/MemProps.v
theories/PipeSpec.v
theories/PipeProof.v
theories/PipeProps.v
theories/ShowSpec.v
theories/ShowProps.v
theories/EditPipeSpec.v
theories/EditPipeProps.v
theories/StringSpec.v
theories/StringProps.v
theories/MemSyncModel.v
theories/MemSyncSpec.v
theories/MemSyncProof.v
theories/MemSyncSim.v
theories/MemTransProof.v
theories/MemUkkProof.v
theories/MemSyncProps.v
theories/LayoutSpec.v
theories/LayoutProof.v
theories/LayoutProps.v
theories/MemEditModel.v
theories/MemEditProof.v
theories/MemEditSim.v
theories/MemEditLoop.v
theories/MemEditProps.v
theories/DepthModel.v
theories/DepthProof.v
theories/DepthProps.v
theories/ExitModel.v
theories/ExitSpec.v
theories/ExitProof.v
theories/ExitProps.v
theories/MessageSpec.v
theories/MessageReadProof.v
theories/MessageProof.v
theories/MessageCallProof.v
theories/MessageProps.v
theories/WideModel.v
theories/WideProof.v
theories/WideRead.v
theories/WideWord.v
theories/WideEdit.v
theories/WideProps.v
theories/WordLineProof.v
theories/WordFileProof.v
theories/WordLineProps.v
theories/MarkSpec.v
theories/MarkProof.v
theories/MarkProps.v
theories/CaseProps.v
theories/RenameProof.v
theories/RenameProps.v
theories/WorkModel.v
theories/WorkProof.v
theories/WorkProps.v
theories/VoteMajProof.v
theories/VoteMajProps.v
theories/EditBagProps.v
theories/SortWorkModel.v
theories/SortWorkProof.v
theories/WordWorkModel.v
theories/WordWorkProof.v
theories/WordWorkTop.v
theories/WorkMoreProps.v
theories/WordEditProof.v
theories/WordErrSpec.v
theories/WordErrProof.v
theories/WordErrProps.v
theories/SpacingSpec.v
theories/SpacingProof.v
theories/SpacingProps.v
theories/CountErrProps.v
theories/WideSumModel.v
theories/WideSumProof.v
theories/WideProg.v
theories/WideSumProps.v
theories/ShownSpec.v
theories/ShownProps.v
theories/AgreeSpec.v
theories/AgreeProps.v
theories/WildSpec.v
theories/WildProps.v
theories/WildProgProps.v
theories/AccSplitProps.v
theories/ChainSpec.v
theories/ChainProps.v
theories/StopChoiceProps.v
theories/PhraseProps.v
theories/DistMoreProps.v
theories/CostProps.v
theories/SortMoreProps.v
theories/BoundProps.v
theories/BoundProgProps.v
theories/PerfectProps.v
theories/PerfectWordProps.v
theories/ReorderProps.v
theories/WordPerfectProps.v
