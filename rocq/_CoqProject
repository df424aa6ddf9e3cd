-Q theories Verif
theories/Types.v
theories/TypesProofs.v
theories/VoteSpec.v
theories/VoteProofs.v
theories/PropsVote.v
theories/LogIdList.v
theories/LogIdSpec.v
theories/LogIdListProofs.v
theories/LogIdLoadProofs.v
theories/PropsLogId.v
theories/Quorum.v
theories/Membership.v
theories/QuorumSpec.v
theories/QuorumProofs.v
theories/PropsQuorum.v
theories/Progress.v
theories/ProgressSpec.v
theories/ProgressProofs.v
theories/PropsProgress.v
theories/RaftState.v
theories/ProgressEntry.v
theories/Engine.v
theories/Store.v
theories/RaftCore.v
theories/EnginePrims.v
theories/NodeSpec.v
theories/NodePrims.v
theories/StoreProofs.v
theories/VoteNodeProofs.v
theories/ElectProofs.v
theories/LeadProofs.v
theories/NodeExamples.v
theories/PropsElect.v
theories/CommandProofs.v
theories/PropsCommand.v
theories/Runtime.v
theories/Transport.v
theories/LogSpec.v
theories/LogProofs.v
theories/WalkProofs.v
theories/EngLogProofs.v
theories/NodeLogProofs.v
theories/StepLogProofs.v
theories/KindProofs.v
theories/LogPropSpec.v
theories/LogStateProofs.v
theories/LogExamples.v
theories/PanicExamples.v
theories/PropsLog.v
theories/MiscSpec.v
theories/MiscProofs.v
theories/PropsMisc.v
theories/RoleSpec.v
theories/HonestSpec.v
theories/RoleProofs.v
theories/HonestProofs.v
theories/OwnProofs.v
theories/StartProofs.v
theories/RolePropProofs.v
theories/RoleExamples.v
theories/RestartExamples.v
theories/PropsRole.v
theories/ReplSpec.v
theories/ReplProofs.v
theories/ReplExamples.v
theories/PropsRepl.v
theories/LeaderTime.v
theories/TimeSpec.v
theories/TimeProofs.v
theories/TimeExamples.v
theories/PropsTime.v
theories/ProtoProofs.v
theories/Cluster.v
theories/ClusterSpec.v
theories/ClNodeProofs.v
theories/ClLogProofs.v
theories/ClStepProofs.v
theories/ClVoteProofs.v
theories/ClCoreProofs.v
theories/ClGrowProofs.v
theories/ClItemProofs.v
theories/ClusterProofs.v
theories/ClusterExamples.v
theories/MemSpec.v
theories/MemLogProofs.v
theories/MemProofs.v
theories/MemExamples.v
theories/FlightProofs.v
theories/TransferProofs.v
theories/FlightExamples.v
theories/ClientSpec.v
theories/TxProofs.v
theories/ClientProofs.v
theories/ClientExamples.v
theories/PropsCluster.v
theories/PropsMem.v
theories/PropsClient.v
theories/DurIoProofs.v
theories/DurProofs.v
theories/DurStepProofs.v
theories/DurNodeProofs.v
theories/DurableSpec.v
theories/DurableProofs.v
theories/DurableExamples.v
theories/PropsDurable.v
theories/ReadSpec.v
theories/ReadProofs.v
theories/ReadLeadProofs.v
theories/NoopProofs.v
theories/ReadExamples.v
theories/PropsRead.v
theories/Api.v
theories/ApiSpec.v
theories/ApiProofs.v
theories/PropsApi.v
theories/Metrics.v
theories/MetricsProofs.v
theories/MetricsExamples.v
theories/PropsMetrics.v
theories/ReadDoneProofs.v
theories/DurMetricsProofs.v
