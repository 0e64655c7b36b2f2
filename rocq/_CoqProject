-Q theories Verif
theories/Model/Base.v
theories/Model/GoStrings.v
theories/Model/IncBlame.v
theories/Spec/Text.v
theories/Spec/UnifiedDiff.v
theories/Proofs/TrimProofs.v
theories/Proofs/TextLemmas.v
theories/Proofs/HunkHeader.v
theories/Proofs/ParsePatch.v
theories/Spec/Attribution.v
theories/Proofs/ApplyPatch.v
theories/Model/IncBlameHeap.v
theories/Proofs/IncBlameMore.v
theories/Proofs/FitProofs.v
theories/Proofs/QuotedNames.v
theories/Proofs/MergeBlame.v
theories/Props/IncBlameProps.v
theories/Model/LogParser.v
theories/Spec/GitLog.v
theories/Proofs/LogParse.v
theories/Proofs/LogParseMore.v
theories/Props/LogProps.v
theories/Model/GoSort.v
theories/Model/ParentsGraph.v
theories/Model/Branches.v
theories/Model/HistoryGraph.v
theories/Model/Cost.v
theories/Spec/Work.v
theories/Spec/CommitGraph.v
theories/Proofs/SortLemmas.v
theories/Proofs/ParentsGraphProofs.v
theories/Proofs/Dfs.v
theories/Proofs/BranchProofs.v
theories/Proofs/BranchMore.v
theories/Proofs/LastCommonParentProofs.v
theories/Proofs/GraphExamples.v
theories/Proofs/CostProofs.v
theories/Props/GraphProps.v
theories/Props/CostProps.v
theories/Model/Process.v
theories/Model/Timing.v
theories/Spec/History.v
theories/Spec/Processing.v
theories/Proofs/BlameOf.v
theories/Proofs/ProcessRegular.v
theories/Proofs/ProcessMerge.v
theories/Proofs/ProcessLoop.v
theories/Proofs/MergeOrder.v
theories/Proofs/ProcessTop.v
theories/Proofs/TimingProofs.v
theories/Proofs/ProcessExamples.v
theories/Props/ProcessProps.v
theories/Model/Msgp.v
theories/Model/MsgpData.v
theories/Model/Checkpoint.v
theories/Model/CheckpointFS.v
theories/Spec/Checkpoint.v
theories/Spec/Message.v
theories/Proofs/MsgpProofs.v
theories/Proofs/MsgpDataProofs.v
theories/Proofs/CheckpointProofs.v
theories/Proofs/CheckpointFiles.v
theories/Proofs/Resume.v
theories/Spec/Resuming.v
theories/Proofs/ResumeTop.v
theories/Proofs/CheckpointCrash.v
theories/Proofs/CheckpointCut.v
theories/Proofs/CheckpointExamples.v
theories/Props/CheckpointProps.v
theories/Props/MessageProps.v
theories/Model/CommitMeta.v
theories/Model/FileInfo.v
theories/Model/License.v
theories/Model/CodeInfo.v
theories/Model/GenIgnore.v
theories/Spec/MetaLog.v
theories/Spec/Regex.v
theories/Spec/Exclusion.v
theories/Spec/Records.v
theories/Proofs/MetaNames.v
theories/Proofs/MetaParse.v
theories/Proofs/RegexProofs.v
theories/Proofs/GenIgnoreProofs.v
theories/Proofs/RecordProofs.v
theories/Proofs/RecordMore.v
theories/Props/MetaProps.v
theories/Props/RecordProps.v
theories/Model/Net.v
theories/Model/Pipeline.v
theories/Spec/Delivery.v
theories/Spec/EndToEnd.v
theories/Proofs/NetProofs.v
theories/Proofs/NetFinal.v
theories/Model/GetAll.v
theories/Proofs/PipelineProofs.v
theories/Proofs/PipelineMore.v
theories/Proofs/PipelineCrash.v
theories/Spec/Collecting.v
theories/Proofs/GetAllProofs.v
theories/Proofs/GetAllRun.v
theories/Proofs/EndToEndProofs.v
theories/Proofs/EndToEndRun.v
theories/Props/PipelineProps.v
theories/Props/GetAllProps.v
theories/Model/MetaRun.v
theories/Spec/LeftBehind.v
theories/Proofs/MetaRunProofs.v
theories/Props/MetaRunProps.v
theories/Model/Stats.v
theories/Spec/Statistics.v
theories/Proofs/StatsProofs.v
theories/Props/StatsProps.v
theories/Model/StatsText.v
theories/Spec/StatsReport.v
theories/Proofs/StatsTextProofs.v
theories/Props/StatsTextProps.v
theories/Model/MemLogs.v
theories/Spec/MemLines.v
theories/Proofs/MemLogsProofs.v
theories/Props/MemLogsProps.v
theories/Props/FitProps.v
theories/Spec/Presentation.v
theories/Proofs/PresentationProofs.v
theories/Props/PresentationProps.v
theories/Props/ConfigProps.v
theories/Props/EndToEndProps.v
theories/Model/BranchMeta.v
theories/Spec/Refs.v
theories/Proofs/BranchMetaProofs.v
theories/Props/RefProps.v
theories/Model/BranchPool.v
theories/Spec/BranchDelivery.v
theories/Proofs/BranchPoolProofs.v
theories/Proofs/BranchRun.v
theories/Props/BranchPoolProps.v
theories/Model/GitBlame.v
theories/Spec/Porcelain.v
theories/Proofs/GitBlameProofs.v
theories/Props/GitBlameProps.v
theories/Model/GitRepos.v
theories/Spec/Discovery.v
theories/Proofs/GitReposProofs.v
theories/Props/GitReposProps.v
theories/Model/GitPipe.v
theories/Spec/Reading.v
theories/Proofs/GitPipeProofs.v
theories/Props/ReadingProps.v
theories/Model/Commands.v
theories/Model/Profile.v
theories/Model/Random.v
theories/Model/LogArgs.v
theories/Model/Session.v
theories/Spec/CommandLine.v
theories/Spec/Profiling.v
theories/Spec/Chance.v
theories/Spec/Selection.v
theories/Proofs/CommandProofs.v
theories/Proofs/SelectionProofs.v
theories/Proofs/OldFork.v
theories/Props/CommandProps.v
theories/Props/ProfileProps.v
theories/Props/RandomProps.v
theories/Props/SelectionProps.v
theories/Proofs/ChainExample.v
theories/Props/OldForkProps.v
theories/Props/SessionProps.v
theories/Model/Callers.v
theories/Spec/Callers.v
theories/Proofs/Sink.v
theories/Proofs/CallersProofs.v
theories/Props/CallerProps.v
theories/Spec/Repeat.v
theories/Proofs/RepeatProofs.v
theories/Proofs/RetypeExample.v
theories/Props/RepeatProps.v
theories/Props/ExclusionProps.v
theories/Model/Validate.v
theories/Model/Api.v
theories/Spec/Validation.v
theories/Spec/GitAnswers.v
theories/Spec/Failing.v
theories/Spec/Continuing.v
theories/Spec/Series.v
theories/Proofs/ValidateProofs.v
theories/Proofs/ApiProofs.v
theories/Props/ValidateProps.v
theories/Props/ApiProps.v
theories/Proofs/IncrementalProofs.v
theories/Proofs/FailureProofs.v
theories/Props/IncrementalProps.v
theories/Proofs/SeriesProofs.v
theories/Props/SeriesProps.v
theories/Props/FailureProps.v
theories/Model/ApiByCommit.v
theories/Model/CodeCommand.v
theories/Model/BranchesCommand.v
theories/Spec/ByCommit.v
theories/Spec/CodePrinting.v
theories/Spec/BranchPrinting.v
theories/Proofs/ReadersProofs.v
theories/Proofs/ByCommitProofs.v
theories/Proofs/CodeCommandProofs.v
theories/Proofs/BranchesCommandProofs.v
theories/Props/CodeCommandProps.v
theories/Model/RecordLine.v
theories/Spec/LineReading.v
theories/Proofs/RecordLineProofs.v
theories/Props/RecordLineProps.v
theories/Props/BranchesCommandProps.v
theories/Model/BranchLine.v
theories/Spec/BranchReading.v
theories/Proofs/BranchLineProofs.v
theories/Props/BranchLineProps.v
theories/Props/ByCommitProps.v
theories/Model/GitCache.v
theories/Spec/Caching.v
theories/Props/CacheProps.v
theories/Model/BlameCommit.v
theories/Model/Logger.v
theories/Model/BranchesApi.v
theories/Spec/TreeList.v
theories/Spec/Logging.v
theories/Spec/BranchAnswers.v
theories/Proofs/BranchesApiProofs.v
theories/Props/BlameCommitProps.v
theories/Props/LoggerProps.v
theories/Props/BranchesApiProps.v
theories/Spec/Licensing.v
theories/Props/LicenseProps.v
theories/Props/ExampleProps.v
theories/Spec/BranchIds.v
theories/Proofs/BranchIdProofs.v
theories/Props/BranchIdProps.v
