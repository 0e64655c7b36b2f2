# Generates /verif/properties.jsonl.  One entry per semantic property.
import json
P=[]
def p(title, statement, quantifier, why, anchors):
    P.append(dict(id="C%02d"%(len(P)+1), title=title, statement=statement, quantifier=quantifier, why_tests_cant=why, anchors=anchors))

IB="ripsrc/history3/incblame/"
PR="ripsrc/history3/process/"
B2="ripsrc/branches2/"
# --- incremental blame -------------------------------------------------
p("Applying a git diff reproduces the new file, line by line",
  "If the diff text git prints between an old and a new version of a file is parsed (incblame.Parse) and applied (incblame.Apply) to blame data holding the old version, the call succeeds and the resulting blame has exactly the lines of the new version, in order (up to the trailing carriage returns that every line scanner drops).",
  "all old files, all new files, all edit scripts git can print with two or more context lines (git's default is three), all line contents, all commit ids",
  "Unit tests apply a handful of literal diffs; the claim is about every file size, hunk layout and byte content.",
  [IB+"apply.go:Apply", IB+"parse.go:Parse", IB+"parse_utils.go:parseContext"])
p("Blame attribution: kept lines keep their commit, added lines get the new commit",
  "After Apply, each line that the diff keeps carries the commit it carried before, and each line the diff adds carries the commit being processed; no other commit id ever appears and the result's own commit is the commit being processed.",
  "all blames, all valid edit scripts, all commit ids",
  "Needs every combination of kept/added/deleted runs; tests only look at a few literals.",
  [IB+"apply.go:Apply"])
p("Hunk order is irrelevant",
  "Apply gives the same blame whatever the order in which the hunks of one file's diff are listed.",
  "all blames, all diffs with pairwise different old offsets, all permutations of the hunk list",
  "There are n! orders; tests use only the order git prints.",
  [IB+"apply.go:Apply sort.Slice"])
p("Hunk headers are located correctly",
  "The position at which a hunk is applied is the position its '@@ -start,count +start,count @@' header denotes, including the abbreviated '-start' form (count 1) and the zero-count form.",
  "all hunk headers of the unified diff format",
  "Header space is infinite; the abbreviated form is only tested with start 1 / on the added side.",
  [IB+"parse_utils.go:parseContext", IB+"apply.go:Apply"])
p("File names are recovered from diff headers",
  "For every path that git prints unquoted, parsing the diff of a non-rename change yields that path as both old and new path (empty old path for a creation, empty new path for a deletion), and parsing the diff of a rename yields exactly the old and the new path, spaces and ' b/' sequences included.",
  "all unquoted paths (including paths with spaces), all change kinds",
  "Paths with spaces make the 'diff --git' line ambiguous; only a proof covers all of them.",
  [IB+"parse_utils.go:parseDiffDecl", IB+"parse.go:parser.Parse"])
p("Quoted file names are handled the same way in every change kind",
  "A path that git prints in double quotes (non-ASCII bytes, quotes, tabs, backslashes) is reported under one and the same name whether it is created, modified, renamed or deleted.",
  "all paths git quotes, all change kinds",
  "The code has separate extraction paths per change kind; tests cover one quoted creation.",
  [IB+"parse_utils.go:parseDiffDecl", IB+"parse.go:parser.Parse", PR+"process.go:processRegularCommit"])
p("Merge blame: every line is attributed to the first parent that already had it",
  "ApplyMerge yields the merged file's lines; the commit of each line is the one recorded by the first parent (in parent order) whose diff keeps that line, and the merge commit exactly for the lines no parent had.",
  "any number of parents, all blames and per-parent edit scripts that produce the same merged file",
  "Quantifies over all parent counts and all per-parent edit scripts.",
  [IB+"apply_merge2.go:ApplyMerge"])
p("Applying a diff never alters the input blame",
  "Apply and ApplyMerge leave the blame data they read untouched, so blame already emitted for earlier commits, or shared with other files and branches, never changes later.",
  "all histories of Apply/ApplyMerge calls over shared blame data",
  "Aliasing bugs need particular sharing histories to show up.",
  [IB+"apply.go:Apply", IB+"apply_merge2.go:ApplyMerge", PR+"process.go"])
p("Blame equality is an equivalence that compares commit and lines",
  "Blame.Eq is reflexive, symmetric and transitive, and holds exactly when both blames have the same commit and the same sequence of (content, commit) lines; two blames that are Eq are interchangeable for users.",
  "all pairs and triples of blames",
  "Infinite domain.",
  [IB+"apply.go:Blame.Eq", IB+"apply.go:Line.Eq"])
# --- git log parser ----------------------------------------------------
p("The patch log parser recovers every commit and diff",
  "Parsing the output of 'git log -p -m --pretty=short' yields one record per log entry, in order, with its hash, the parent a merge entry is diffed against, and the exact diff text of every changed file.",
  "all logs: any number of commits, any number of files, any commit messages and any file contents",
  "Content lines can look like headers ('commit ', 'diff'); only a proof covers all contents.",
  [PR+"parser/parser.go:Parser.Run", PR+"parser/parser.go:Parser.line"])
p("Over-long lines are reported as an error, never silently truncated",
  "A log line longer than the scanner limit makes the parser return an error; if the parser returns without error, every byte of the log was consumed.",
  "all inputs and all line lengths",
  "The limit (100 MB / 1 MB / 64 KB) is never reached in tests.",
  [PR+"parser/parser.go:Parser.Run", "ripsrc/parentsgraph/parentsp/parser.go:Parser.Run", "ripsrc/commitmeta/commitmeta.go:Processor.Run"])
# --- parents graph -----------------------------------------------------
p("The commit graph parser recovers the parent relation",
  "Reading 'hash@parents' log output yields exactly the commits of the log with exactly their parents in order.",
  "all logs",
  "Infinite input space.",
  ["ripsrc/parentsgraph/parentsp/parser.go:Parser.Run"])
p("Children are the exact inverse of parents",
  "In a built graph, c is listed as a child of p exactly as many times as p is listed as a parent of c, every commit has an entry even without children, and each list is sorted, whatever order the runtime iterates its maps in.",
  "all parent maps, all map iteration orders",
  "Map iteration order is random and the set of graphs infinite.",
  ["ripsrc/parentsgraph/parents.go:childrenFromParents"])
# --- branches ----------------------------------------------------------
p("Reachability from the default head is exact and terminates",
  "The set of commits considered 'on the default branch' is exactly the set reachable from its head by parent edges, and computing it terminates on every graph.",
  "all finite graphs (even malformed, cyclic ones), all heads",
  "Needs all graph shapes.",
  [B2+"branch_commits.go:newReachableFromHead"])
p("Commits of an unmerged branch are exactly those not on the default branch",
  "For a branch whose head is not reachable from the default head, Commits holds every commit reachable from the branch head and not from the default head, each exactly once, and nothing else; the head is last; AheadDefaultCount is their number.",
  "all commit graphs, all default heads and branch heads",
  "Needs all graph shapes.",
  [B2+"branch_commits.go:branchCommits", B2+"process.go:processBranch"])
p("Commits of a merged branch exclude what the default branch has without it",
  "For a branch whose head is reachable from the default head, Commits holds, each exactly once and head last, the branch head plus every ancestor of it that the default head cannot reach without passing through the branch head.",
  "all commit graphs, all heads",
  "Needs all graph shapes.",
  [B2+"branch_commits.go:branchCommits"])
p("Commits never include commits that were on the default branch before the branch was created",
  "The documented promise of Branch.Commits ('does not include commits that were on master before it was created, could be empty') for branches whose head is an old or the current default branch commit.",
  "all commit graphs, all heads",
  "Needs all graph shapes.",
  [B2+"process.go:Branch.Commits", B2+"branch_commits.go:branchCommits"])
p("FirstCommit and Commits[0] are the first commit of the branch",
  "Commits[0] and FirstCommit name a commit of the branch none of whose parents is a commit of the branch, and every commit but the head has a child later in the list.",
  "all commit graphs, all heads",
  "Only some graph shapes (diamonds) expose the ordering.",
  [B2+"process.go:processBranch", B2+"branch_commits.go:branchCommits"])
p("Branch points are the oldest intersections with the default branch",
  "BranchedFromCommits is the sorted, duplicate-free list of exactly those default-branch commits that are parents of a branch commit and have no other such commit among their ancestors; it does not depend on map iteration order.",
  "all acyclic commit graphs, all heads, all map iteration orders",
  "Needs all graph shapes and iteration orders.",
  [B2+"branch_commits.go:dedupLinearFromHead"])
p("BehindDefaultCount counts the default-branch commits missing from the branch",
  "For an unmerged branch with a common commit, BehindDefaultCount is the number of commits reachable from the default head and not from the branch head.",
  "all commit graphs, all heads",
  "Needs graph shapes with several paths around the branch point.",
  [B2+"behind_branch.go:behindBranch"])
p("MergeCommit names a default-branch child of the branch head",
  "IsMerged holds exactly when the branch head is reachable from the default head; MergeCommit is then the first (in sorted order) child of the branch head that is on the default branch, and it is set whenever IsMerged is.",
  "all commit graphs, all heads",
  "Needs all graph shapes.",
  [B2+"merge_commit.go:getMergeCommit", B2+"process.go:processBranch"])
p("All commits of the default branch are listed exactly once",
  "The default branch record lists every commit reachable from the head exactly once with the head last; the computation panics only if the graph lacks a reachable commit.",
  "all commit graphs",
  "Needs all graph shapes.",
  [B2+"process.go:getAllCommits"])
p("Every branch and pull request is reported exactly once under every schedule",
  "Whatever the number of workers and their interleaving, Branches emits the default branch first (when requested), then exactly one record per branch of the branch list (how that list is read is C24) and per distinct known pull request sha, never deadlocks, and the result channel is closed once, after the last record.",
  "all worker counts, all interleavings, all ref lists",
  "Tests see one schedule per run.",
  [B2+"process.go:Run", B2+"name_hash.go:Chan", "ripsrc/branches.go:Branches"])
p("Branch list parsing keeps exactly the non-default branches, sorted by name",
  "From the for-each-ref output, every branch except the default one and HEAD is returned once with its commit, with the origin/ prefix removed when remote branches are used, sorted by name.",
  "all ref lists, all branch names",
  "Branch names may contain the field separator.",
  ["ripsrc/branchmeta/branchmeta.go:Get"])
p("Last common parent is a common ancestor",
  "LastCommonParent returns a commit reachable from all heads whenever one exists on an acyclic graph, panics exactly when none exists, and returns the latest one.",
  "all acyclic graphs and head lists",
  "Needs all graph shapes.",
  [PR+"graph/graph.go:LastCommonParent"])
# --- process -----------------------------------------------------------
p("One result per commit, in log order",
  "Processing a log emits exactly one result per distinct commit, in the order of the log, merging the several log entries of a merge commit into one result.",
  "all logs in which the entries of one merge are consecutive",
  "All history lengths and merge shapes.",
  [PR+"process.go:Run", PR+"process.go:processCommit", PR+"process.go:processGotMergeParts"])
p("Blame of every reported file equals the file in that commit",
  "For any history whose diffs are correct, processing succeeds and every file of every reported non-merge commit has blame whose lines are the file's lines in that commit, attributed according to the line's history; all files of the commit, changed or not, stay available to child commits with their correct blame.",
  "all histories (commit DAGs, trees, diffs)",
  "Induction over unbounded histories.",
  [PR+"process.go:processRegularCommit", PR+"process.go:processMergeCommit"])
p("Reported files are exactly the changed files",
  "The files of a regular commit's result are exactly the paths its diff touches (deleted files under their old name with empty blame).",
  "all commits and diffs",
  "All combinations of change kinds.",
  [PR+"process.go:processRegularCommit"])
p("Files removed or renamed away disappear from the tracked state",
  "After a commit that deletes or renames away a path, the state kept for that commit (and hence saved in checkpoints and passed to children) has no entry for that path.",
  "all histories",
  "Depends on history and merge shape.",
  [PR+"process.go:processRegularCommit copy unchanged", PR+"process.go:processMergeCommit second phase"])
p("Merge results do not depend on map iteration order",
  "The result and the stored state of a merge commit are the same whatever order the runtime iterates the part and file maps in.",
  "all merges, all iteration orders",
  "Map iteration order is random per run.",
  [PR+"process.go:processMergeCommit"])
p("Merge commits report only files that differ from every parent",
  "A file that is identical to some parent's file is not reported for a merge commit and keeps that parent's blame; a file changed relative to all parents is reported with the merged blame.",
  "all merges",
  "All merge shapes.",
  [PR+"process.go:processMergeCommit"])
p("A parent's blame is never evicted while a child still needs it",
  "When commits arrive parents first, looking up a parent commit never fails: a commit's blame is only dropped after all its children have been processed and 1000 further commits have been finished.",
  "all graphs, all topological processing orders, any length",
  "Needs histories longer than 1000 commits with arbitrary branching.",
  [PR+"process.go:trimGraphAfterCommitProcessed", PR+"repo/repo.go:Unloader.Unload"])
p("Memory and checkpoint size stay bounded by the open frontier",
  "At any time the state holds at most 1000 commits all of whose children are processed, and those are the most recently finished ones.",
  "all histories",
  "Needs long histories.",
  [PR+"repo/repo.go:Unloader.Unload", PR+"process.go:trimGraphAfterCommitProcessed"])
p("The ten slowest commits are the ten slowest",
  "After any sequence of updates SlowestCommits holds the min(10,n) longest durations seen, in descending order.",
  "all update sequences",
  "All histories.",
  [PR+"process.go:Timing.UpdateSlowestCommitsWith"])
# --- checkpoint --------------------------------------------------------
p("Checkpoint write/read round trip",
  "Reading a written checkpoint gives back the same commits (those that have files), paths, blames (commit, binary flag, number and commits of the lines) with the sharing of blame objects and line objects preserved, whatever was in the directory before and however the writes were split. (Texts of lines: C36; commits without files: C37.)",
  "all repository states, all map iteration orders",
  "All states; sharing and order are invisible in small tests.",
  [PR+"repo/writer.go:Write", PR+"repo/reader.go:Read"])
p("Line contents survive the checkpoint",
  "The content of each line after reading a checkpoint is the content written, although line contents are stored under a 64-bit hash.",
  "all repository states, all line contents",
  "Hash collisions never show up in tests.",
  [PR+"repo/writer.go:Write xxhash", PR+"repo/reader.go:Read"])
p("Commits without files survive the checkpoint",
  "A commit whose tree is empty is still known after reading the checkpoint, so processing can continue on top of it.",
  "all repository states",
  "Needs histories with empty trees combined with incremental runs.",
  [PR+"repo/writer.go:Write", PR+"repo/repo.go:AddCommit", PR+"repo/repo.go:GetCommitMust"])
p("Resuming from a checkpoint gives the same results as one full run",
  "Processing a log in one run, or processing a prefix, saving the checkpoint, reading it in a new process and processing the rest, emits the same results for the rest.",
  "all histories and all split points",
  "All histories and split points.",
  [PR+"process.go:initCheckpoints", PR+"process.go:Run", PR+"repo/writer.go:Write", PR+"repo/reader.go:Read"])
p("Strict resume refuses a checkpoint of another commit",
  "Unless NoStrictResume is set, an incremental run succeeds in reading the checkpoint only if it was written after exactly the requested commit; otherwise an error naming both commits is returned and nothing is emitted.",
  "all checkpoint contents and requests",
  "All histories.",
  [PR+"repo/reader.go:Read", PR+"process.go:initCheckpoints"])
p("Crash safety: a checkpoint is read completely or not at all",
  "Whatever point a crash interrupts writing at, a later read returns the complete old checkpoint, the complete new checkpoint, or an error; never a mixture or part of one.",
  "all crash points, all removal orders, all old and new states",
  "Crash points cannot be enumerated by tests.",
  [PR+"repo/writer.go:Write", PR+"repo/msgp.go:Finish", PR+"repo/reader.go:Read"])
p("Crash safety: a crash never loses both checkpoints",
  "Whatever point a crash interrupts writing at, a readable checkpoint (old or new) remains if there was one before.",
  "all crash points",
  "Crash points cannot be enumerated by tests.",
  [PR+"repo/writer.go:Write RemoveAll/Rename"])
p("Truncated checkpoint files are detected",
  "Reading a checkpoint whose files were cut short returns an error instead of a smaller repository.",
  "all truncation points",
  "All truncation points of all files.",
  [PR+"repo/reader.go:msgIsEOF", PR+"repo/msgp.go:Finish"])
p("Checkpoint records decode to what was encoded",
  "For each of the four on-disk record types, decoding the bytes produced by encoding yields the same record and leaves exactly the following bytes; hence streams of records decode to the same streams.",
  "all records: all strings, byte strings, pointer lists and 64-bit numbers",
  "Generated tests use zero values only.",
  [PR+"repo/disk/disk_gen.go", PR+"repo/disk/disk.go"])
p("CommitFromMakeNonIncl skips checkpoints",
  "With CommitFromMakeNonIncl set, no checkpoint is read or written (documented on the option).",
  "all option combinations and states",
  "Documented behaviour over all states.",
  ["ripsrc/ripsrc.go:Opts.CommitFromMakeNonIncl", PR+"process.go:initCheckpoints", PR+"process.go:Run"])
# --- commit meta / code info -------------------------------------------
p("The commit metadata parser recovers every commit of the log",
  "Parsing the metadata log yields each commit once, in order, numbered 1,2,3,..., with its hash, parents, author, committer, date and subject, and its changed files with status, line counts and binary flag.",
  "all logs: any subjects, names, files",
  "Infinite input space; subjects and names are attacker controlled.",
  ["ripsrc/commitmeta/commitmeta.go:parser.parse", "ripsrc/commitmeta/commitmeta.go:Processor.Run"])
p("Changed file statistics are keyed by the file's real name",
  "The additions/deletions of a plain (non-rename) change are recorded under the path itself for every path.",
  "all paths",
  "Paths may contain ' => ' or braces.",
  ["ripsrc/commitmeta/commitmeta.go:getFilename"])
p("Each reported file record combines blame and metadata of the same commit and path",
  "Every BlameResult has the filename and commit it was computed for; there is exactly one per path that is both in the blame result and in the commit's file list (empty path excluded); removed files carry status removed, no lines and the removal skip reason.",
  "all blame results and metadata, all iteration orders",
  "All combinations.",
  ["ripsrc/code_info.go:codeInfoFiles"])
p("Lines of a record mirror the blame",
  "A non-skipped record has one line per blame line, in order, each with the blame's commit and that commit's author, email and date; the line classification reported by the counter is attached to the right line and to no other.",
  "all blames, all metadata maps, all classification callback sequences",
  "All callback sequences.",
  ["ripsrc/code_info.go:codeInfoFile", "ripsrc/code_info.go:codeStats", "ripsrc/code_info.go:ProcessLine"])
p("Line authorship is complete in incremental runs",
  "Also when processing starts from a given commit, every line of a record carries the author of the commit it is attributed to.",
  "all incremental runs",
  "Depends on lines older than the start commit.",
  ["ripsrc/code_info.go:codeInfoFile", "ripsrc/commit_info.go:getCommitInfo"])
p("Files classified as source respect all limits",
  "A file that is not skipped has at most 1,000,000 bytes, at most 40,000 lines, no line over 1096 bytes, a known language, is not a license file and passes the path filters; and conversely each violated limit is reported with the documented precedence.",
  "all paths, contents and lines; all behaviours of the external classifiers",
  "Boundary values over infinite domains.",
  ["ripsrc/fileinfo/fileinfo.go:GetInfo"])
p("The path filter cache is transparent",
  "Classification of a path never depends on which files were classified before.",
  "all call histories",
  "All call histories.",
  ["ripsrc/fileinfo/fileinfo.go:checkFilePath"])
p("Generated files are dropped from statistics",
  "A record is marked generated exactly when the counter reported a comment line whose text contains one of the generator markers, and then has no language and the generated skip reason.",
  "all contents and callback sequences",
  "All callback sequences.",
  ["ripsrc/code_info.go:ProcessLine", "ripsrc/code_info.go:codeStats"])
# --- pipeline ----------------------------------------------------------
p("Code delivers the records of all commits in commit order under every schedule",
  "Under every interleaving of the goroutines, Code emits the records of commit 1, then of commit 2, and so on, each record once, never deadlocks while the caller keeps receiving, and closes the channel exactly once after the last record.",
  "all interleavings, all results",
  "Tests see one schedule.",
  ["ripsrc/code.go:Code", "ripsrc/code.go:CodeByCommit", PR+"process.go:Run", PR+"parser/parser.go:Run"])
p("Errors end the stream cleanly",
  "If processing fails at some commit, exactly the results of the earlier commits are delivered, then the channel is closed and the error returned, under every schedule, without deadlock.",
  "all interleavings, all failure points",
  "Failure points times schedules.",
  [PR+"process.go:Run drainAndExit", "ripsrc/code.go:CodeByCommit"])
# --- git blame fallback / repo discovery -------------------------------
p("git blame porcelain output is parsed exactly",
  "Parsing porcelain blame output yields each line's commit and exact content, in order, and the metadata of the commit's first occurrence for repeated commits.",
  "all blame outputs, all contents",
  "Infinite input space.",
  ["ripsrc/gitblame2/parse_output.go:parseOutput"])
p("Repository discovery visits exactly the repositories",
  "Iterating a directory calls back once for each repository found within the recursion limit, in directory order, does not descend into a repository, and stops at the first callback error.",
  "all directory trees and limits",
  "All directory shapes.",
  ["ripsrc/pkg/gitrepos/gitrepos.go:IterDir"])
p("Blame does not depend on the user's diff.context setting",
  "The blame computed for a change is the same whatever number of context lines the user has configured git to print (diff.context), down to one and zero.",
  "all files, edit scripts and context settings",
  "Tests run with git's default of three context lines only.",
  [IB+"parse_utils.go:parseContext", IB+"apply.go:Apply", PR+"process.go:gitLogPatches"])
p("Results do not depend on the user's git configuration",
  "History processing gives the same results whatever options the user has set in the git configuration: how patches and commits are shown (diff.suppressBlankEmpty, diff.noprefix, log.decorate, color.ui, log.showSignature, log.showRoot) and how renames and copies are looked for (diff.renames).",
  "all configurations and all repositories",
  "Tests run with a clean configuration.",
  [PR+"process.go:gitLogPatches", PR+"parser/parser.go:Parser.line", IB+"parse_utils.go:parseDiffDecl"])
p("A checkpoint belongs to the last commit of a completed run",
  "A run writes a checkpoint only if it processed the whole log without error; the checkpoint's version is the hash of the log's last commit. A run that fails, panics or has nothing to do leaves the checkpoint as it was.",
  "all logs, options, checkpoint directories and failures",
  "Tests only resume from successful runs.",
  [PR+"process.go:Process.Run", PR+"repo/writer.go:CheckpointWriter.Write"])
p("A full run reports every changed file of every commit, with the right lines and authors",
  "A full run of Code on a repository delivers, for every commit in the order of the log and every file the commit changed, exactly one record with that commit and the kind of change; unless the file is skipped the record has one line per line of the file, each with the commit that introduced it and that commit's author and date. This holds whatever the order of the two logs, of Go's maps and of the goroutines.",
  "all repositories, all topological orders, all schedules and map orders",
  "It composes parsers, processing, metadata and goroutines; each test repository exercises one history and one schedule.",
  ["ripsrc/code.go:Code", "ripsrc/code_info.go:codeInfoFiles", PR+"process.go:Process.Run", "ripsrc/commitmeta/commitmeta.go:Processor"])
p("FirstCommit of the default branch is a root commit", "The FirstCommit reported for the default branch is the id of a commit without parents that is reachable from the default branch's head.", "all histories, any number of roots", "Test repositories have one root.", ["ripsrc/branches2/process.go:getFirstCommit", "ripsrc/branches2/process.go:Run"])
p("Git's output is read completely or the program stops",
  "Whatever the pieces in which git's output arrives and whatever the schedule, a reader of a git command gets a prefix of the output in order, sees the end of the file only after all of the output of a git command that succeeded, and if git fails, or the reader stops before it has read everything, the program crashes instead of going on with part of the output. A reader that reads to the end of a successful command never sees a crash, and reading always ends.",
  "all outputs, pieces, readers, exit statuses and schedules",
  "Depends on the sizes of the operating system's buffers and on the scheduler.",
  ["ripsrc/gitexec/gitexec.go:ExecPiped", "ripsrc/gitexec/gitexec.go:ExecIntoWriter"])
p("What is parsed does not depend on how git's output arrives",
  "The lines given to the parsers of git's output are the lines of the whole output, whatever the pieces in which it arrives and whatever the schedule.",
  "all outputs, pieces, schedules and callers",
  "Tests see the pieces their machine happens to produce.",
  ["ripsrc/gitexec/gitexec.go:ExecPiped", PR+"parser/parser.go:Parser.Run", "ripsrc/commitmeta/commitmeta.go:Processor.Run"])
p("The commands work on every repository of the directory",
  "The commands code and branches work on every git repository that is the directory or one level below it, each exactly once and in the order of the names, whichever of them fail; the numbers of repositories, skipped empty repositories, records and the list of failures printed at the end are right.",
  "all directory trees, all contents and failures of the repositories",
  "Tests never run the commands.",
  ["ripsrc/cmd/cmdcode/cmd.go:runOnDirs", "ripsrc/cmd/cmdbranches/cmd.go:runOnDirs", "ripsrc/cmd/cmdutils/repo_run.go:RunOnRepo", "ripsrc/pkg/gitrepos/gitrepos.go:IterDir"])
p("The exit status of the commands tells whether they worked",
  "The commands exit with a status other than 0, and do not say that they finished, if the directory cannot be searched, holds no repository, or the work on any repository failed; every failure is printed.",
  "all directory trees and all failures",
  "Tests never run the commands.",
  ["ripsrc/cmd/cmdutils/errors.go:ExitWithErr", "ripsrc/cmd/cmdutils/errors.go:ExitWithErrs", "ripsrc/cmd/cmdcode/cmd.go:Run"])
p("The line printed for a record shows the record",
  "The command code prints for every record the record's status and its numbers of lines, code lines, comment lines, blank lines and its complexity, and never fails while printing.",
  "all records Code can deliver",
  "Tests never run the commands.",
  ["ripsrc/cmd/cmdcode/cmd.go:runOnRepo"])
p("The logs of one run agree",
  "The logs a run takes from git, of the patches and of the metadata of the commits, show the same commits; the graph of the commits that the run uses has all of them and all of their parents.",
  "all repositories and options",
  "Tests have small linear repositories and few combinations of the options.",
  ["ripsrc/code.go:Code", "ripsrc/commit_info.go:getCommitInfo", PR+"process.go:gitLogPatches", "ripsrc/commitmeta/commitmeta.go:gitLogJSON", "ripsrc/parentsgraph/parents.go:Read"])
p("Which commits a run covers",
  "A full run covers the commits reachable from HEAD, with AllBranches from any ref. A run with CommitFromIncl covers that commit and every commit of HEAD (with AllBranches of any ref) that descends from it, and a commit it does not cover belongs to the history of that commit; with CommitFromMakeNonIncl the commit itself is left out.",
  "all repositories, options and starting commits",
  "Tests start from one commit in the middle of a linear history.",
  [PR+"process.go:gitLogPatches", "ripsrc/commitmeta/commitmeta.go:gitLogJSON", "ripsrc/ripsrc.go:Opts"])
p("Each call on one object sees the repository as it is at the call",
  "A call of Code, CodeByCommit or Branches on an object gives what the same call on a new object would give: earlier calls on the object do not matter, also when commits were added to the repository in between.",
  "all sequences of calls on one object and all repositories at the time of each call",
  "Tests make one call on each object.",
  ["ripsrc/ripsrc.go:buildCommitGraph", "ripsrc/code.go:Code", "ripsrc/branches.go:Branches"])
p("A call sees one state of the repository",
  "If commits are added to the repository while Code is running, the call delivers the records of the repository as it was at one moment of the call, or returns an error.",
  "all repositories, all moments at which commits are added, all schedules",
  "Tests never change the repository during a call.",
  ["ripsrc/code.go:CodeByCommit", "ripsrc/commit_info.go:getCommitInfo", "ripsrc/ripsrc.go:buildCommitGraph", PR+"process.go:gitLogPatches"])
p("CodeByCommit delivers every commit with its own records",
  "Under every schedule, CodeByCommit delivers each processed commit once and in the order of the log, each with a channel on which exactly the records of that commit arrive (the same records Code delivers) and which is then closed; nothing deadlocks or panics, and at the end the commit channel is closed, all goroutines that read, process or deliver commits have returned and the call has returned its result.",
  "all patch logs, metadata, schedules, and callers that read everything",
  "Tests see one schedule and one way of reading the channels.",
  ["ripsrc/code.go:CodeByCommit", "ripsrc/code.go:Code"])
p("A caller may stop reading",
  "A caller that does not want all commits or all records may stop reading: the call still returns, and a caller that ignores the records of a commit still gets the next commit.",
  "all patch logs, all schedules, all ways of reading the channels",
  "Tests read everything.",
  ["ripsrc/code.go:CodeByCommit", "ripsrc/code.go:Code"])
p("Two calls on one repository give the same records",
  "Two calls of Code on an unchanged repository with the same options deliver the same records, commit by commit (in any order within a commit), return the same and save the same state, whatever the order in which Go visits its maps and whatever the schedule.",
  "all repositories and options, all iteration orders, all schedules, all earlier uses of the file classifier's cache",
  "A test run has one schedule and one iteration order, which differ from run to run.",
  ["ripsrc/code.go:Code", PR+"process.go:processMergeCommit", "ripsrc/code_info.go:codeInfoFiles", "ripsrc/fileinfo/fileinfo.go:GetInfo"])
p("Names and markers are tested by the regular expressions in the code",
  "A path is on the exclusion list, or is looked at as a possible licence, exactly if the regular expression written for it in the code matches some part of the path; a comment line announces a generated file exactly if the expression for the markers matches some part of it.",
  "all paths and all comment lines",
  "Tests have a handful of paths; the expression has more than two hundred alternatives.",
  ["ripsrc/fileinfo/gitignore.go:ignorePatterns", "ripsrc/fileinfo/license.go:possibleLicense", "ripsrc/code_info.go:generatedRegexp"])
p("Every pattern of the pattern file excludes the paths it matches",
  "A path is excluded by the exclusion list exactly if the pattern on some line of custom_patterns.txt matches it; for every pattern file, the generated expression matches what its patterns match and nothing else.",
  "all paths and all pattern files",
  "No test compares the list with the file it is generated from.",
  ["genignore.go:parseFile", "genignore.go:main", "custom_patterns.txt", "ripsrc/fileinfo/gitignore.go:ignorePatterns"])
p("The validation command says SUCCESS only if both blames agree",
  "If validate_inc_blame prints SUCCESS for a repository, then for every commit and file the incremental blame has the same lines, with the same texts and commits, as git blame; it complains about exactly the files for which they differ.",
  "all repositories, all answers of git blame, all orders of visiting files",
  "The command has no tests; it is the tool that is used to test the rest.",
  ["cmd/validate.go:validateIncBlameCmd", "ripsrc/gitblame2/gitblame.go:Run"])
p("Code on a repository delivers the right records for every commit of its history",
  "For every repository: a call of Code without a checkpoint asks git for what it needs with the right arguments, neither crashes nor waits for ever, and delivers for each commit of HEAD's history (with AllBranches: of every ref) exactly once, parents first, exactly the right records (changed files, status, author, and for each line the commit that brought it), then closes the channel and returns.",
  "all repositories, all answers git may give by its documentation, all map orders, all schedules",
  "The whole call, from the git commands to the last record; tests compare a few repositories.",
  ["ripsrc/code.go:Code", "ripsrc/code.go:CodeByCommit", "ripsrc/gitexec/gitexec.go:ExecPiped", "ripsrc/gitexec/prepare.go:Prepare", "ripsrc/parentsgraph/parents.go:Read", "ripsrc/commitmeta/commitmeta.go:RunMap", PR+"process.go:Run", PR+"process.go:slowGitBlame"])
p("Cancelling the context ends the call",
  "When the context that was passed to Code is cancelled, the git commands of the call are ended and the call returns an error.",
  "all repositories, all moments of cancelling",
  "No test cancels a context.",
  ["ripsrc/code.go:CodeByCommit", "ripsrc/gitexec/gitexec.go:ExecPiped", "ripsrc/parentsgraph/parents.go:gitLog", "ripsrc/commitmeta/commitmeta.go:gitLog", PR+"process.go:gitLogPatches"])
p("A call leaves no temporary files behind",
  "The temporary files a call makes for git are removed before the call returns.",
  "all repositories and options, all ways for the call to end",
  "Tests do not look at the directory for temporary files.",
  ["ripsrc/commitmeta/commitmeta.go:gitLog", PR+"process.go:gitLogPatches"])
p("Branches on a repository delivers the right record for every branch and pull request",
  "For every repository: a call of Branches (with AllBranches) asks git for what it needs with the right arguments, neither crashes nor waits for ever, and delivers first the default branch with all its commits, then exactly one record for each other branch (of origin, if so asked) and for each distinct pull request head that is in the repository, each with the right commits, heads, places of branching off, merge commit and counts, then closes the channel and returns; without AllBranches it returns an error.",
  "all repositories, all answers git may give by its documentation, all map orders, all schedules",
  "The whole call, from the git commands to the last record; tests compare a few repositories.",
  ["ripsrc/branches.go:Branches", "ripsrc/branches2/process.go:Run", "ripsrc/branchmeta/branchmeta.go:Get", "ripsrc/branchmeta/default.go:GetDefault", "ripsrc/parentsgraph/parents.go:Read"])
p("A failed git command makes Branches return an error",
  "If any of the git commands a call of Branches runs fails, the call returns an error, all its goroutines have returned, and the caller has received nothing but possibly the record of the default branch.",
  "all repositories, all sets of failing commands, all schedules",
  "Tests do not make git fail.",
  ["ripsrc/branches.go:Branches", "ripsrc/branches2/process.go:Run", "ripsrc/branches2/process.go:getFirstCommit", "ripsrc/branchmeta/branchmeta.go:Get", "ripsrc/gitexec/gitexec.go:ExecPiped"])
p("Calls of Code that continue each other deliver every commit once, with the right records",
  "A call of Code with CommitFromIncl, on a repository that has only grown since the call that left the checkpoint, delivers for each commit on HEAD that is not an ancestor of that commit's first parent, exactly once and parents first, exactly the right records, and leaves a checkpoint from which the next call can go on.",
  "all repositories and the ways they grow, all answers git may give, all map orders and schedules of both calls, all splits of the checkpoint's writes",
  "Two whole calls and the files between them; tests run a few fixed pairs.",
  ["ripsrc/code.go:Code", "ripsrc/code.go:CodeByCommit", PR+"process.go:initCheckpoints", PR+"process.go:Run", PR+"process.go:gitLogPatches", "ripsrc/commitmeta/commitmeta.go:gitLog", PR+"repo/reader.go:Read", PR+"repo/writer.go:Write"])
p("A failed git command makes Code return an error, and never passes for a complete result",
  "If git commands fail during a call of Code (or its temporary files cannot be made), the call returns an error; whatever happens, what the caller received are the right records of the first commits, and a call that returns without an error has delivered all of them.",
  "all repositories, all sets of failing commands, all map orders and schedules, full and incremental calls",
  "Tests do not make git fail.",
  ["ripsrc/code.go:Code", "ripsrc/code.go:CodeByCommit", "ripsrc/gitexec/gitexec.go:ExecPiped", "ripsrc/gitexec/prepare.go:Prepare", "ripsrc/commitmeta/commitmeta.go:gitLog", PR+"process.go:gitLogPatches", PR+"process.go:slowGitBlame", "ripsrc/gitblame2/gitblame.go:Run"])
p("A series of calls of Code, each continuing the one before, delivers the whole history of a growing repository",
  "However often Code is called on a repository that only grows, each call continuing at the commit the last checkpoint was written for: every call works whatever was branched and merged in between, together the calls deliver the right records of every commit on HEAD, and each commit exactly once if the later calls leave the starting commit out and HEAD only moves forward.",
  "all series of calls of any length, all ways the repository grows between them, all answers git may give, all map orders and schedules of every call",
  "Needs arbitrarily long series of calls; tests run at most two.",
  ["ripsrc/code.go:Code", PR+"process.go:initCheckpoints", PR+"process.go:Run", PR+"process.go:trimGraphAfterCommitProcessed", PR+"repo/repo.go:Unload", PR+"repo/reader.go:Read", PR+"repo/writer.go:Write"])
p("CodeByCommit on a repository delivers every commit with its own metadata and records",
  "A call of CodeByCommit delivers each selected commit exactly once, parents first, each with the id, authors, date, message, parents and changed files git has for it and on its own channel exactly the right records, the same records in the same order as a call of Code; the channels are closed and the call returns, whatever the caller does.",
  "all repositories, all answers git may give, all map orders and schedules, full and incremental calls, all callers",
  "Tests run a few repositories with one caller that reads everything.",
  ["ripsrc/code.go:CodeByCommit", "ripsrc/code.go:Code", "ripsrc/commitmeta/commitmeta.go:RunMap", "ripsrc/code_info.go:codeInfoFiles"])
p("The licence reported for a file depends only on what the detector finds",
  "For a file that may be a licence, the licence reported is one the licence database finds, with a confidence of at least 0.85, and none it finds is more likely; none is reported if none is likely enough; the same content gives the same licence in every call.",
  "all results of the licence database, all map iteration orders, all behaviours of the unstable sort",
  "Map iteration order and an unstable sort decide between equally likely licences; a test sees one order.",
  ["ripsrc/fileinfo/license_enabled.go:detect", "ripsrc/fileinfo/license_disabled.go:detect", "ripsrc/fileinfo/fileinfo.go:GetInfo"])
p("A cached git command returns what git would print now",
  "gitexec.ExecWithCache returns, for a command in a repository, a reader of exactly what git would print for that command in that repository now (or an error if git fails), whether the output is taken from the cache or not, and whatever crashed before.",
  "every sequence of calls with any arguments in any states of the repository, each cut off by a crash after any of its file operations; every later call; two calls at a time under every schedule",
  "a test runs a few calls without crashes on a repository that does not change; the property quantifies over histories of calls, states of the repository, crash points and schedules",
  ["ripsrc/gitexec/gitexec.go: ExecWithCache, execToFile, headCommit, newGzipFileCloser"])
p("The blame of a commit names its files",
  "gitblamecommit.Blame returns, for a commit, a map whose keys are exactly the paths of the files of that commit, each with a binary placeholder, and an error if git fails.",
  "every commit, with any number of files and any names",
  "names with blanks at the ends or that git quotes, and commits without files, are not in a test repository; the property quantifies over all trees",
  ["ripsrc/history3/process/gitblamecommit/gitblamecommit.go: Blame, listOfFiles"])
p("Lines of the log are whole and in order",
  "Whatever goroutines log at the same time, the writer gets whole lines, one per call (kind, message, pairs), those of each goroutine in the order of its calls; no call blocks for ever; arguments that are not pairs of a string and a value are reported in an extra line and do not lose the message.",
  "every number of goroutines, every list of calls of each with any arguments, every schedule, every moment",
  "a test sees one schedule; the property quantifies over all interleavings of the writes of all goroutines",
  ["ripsrc/pkg/logger/logger.go: NewDefaultLogger, DefaultLogger.Info, DefaultLogger.Debug, log, formatArgs"])
p("The command `ripsrc code` prints one right line per record and goes on",
  "For the repositories in the given directory or one level down, in the order of their paths, `ripsrc code` prints, for each commit to be processed (all of HEAD's history, or with --sha the named commit and the later ones), parents first, a line with its id and date and then one line for each of its records, which shows the repository, the first 8 digits of the commit's id, the file, language, license, counts, why it was skipped, the status of the file and the author (the e-mail address if there is no name); then the number of records of the repository; at the end the number of repositories and of all records, with status 0. Repositories without commits are counted and left out; one the command cannot work on does not end it: the others are worked on and the error is printed at the end.",
  "all directory trees, repositories and histories, all answers of git consistent with them, all goroutine schedules, all orders of Go's maps, with and without --sha",
  "Depends on the interleaving of the pipeline's goroutines with the printing loop, on every repository found, and on index expressions (SHA[0:8], Files[name]) that panic for some inputs.",
  ["ripsrc/cmd/cmdcode/cmd.go: Run, runOnRepo", "ripsrc/ripsrc/code_by_commit.go: CodeByCommit", "ripsrc/pkg/gitrepos/gitrepos.go", "ripsrc/commitmeta/commitmeta.go: Author"])
p("The command `ripsrc branches` prints one right line per branch and goes on",
  "For the repositories in the given directory or one level down, in the order of their paths, `ripsrc branches` prints a line for the default branch and one for each other branch of origin, each once, with its name, the number of its commits, its first commit and the first of its commits; at the end the number of repositories, with status 0. Repositories without commits are counted and left out; if a git command fails in one, at most the line of its default branch is printed, the other repositories are worked on, and the error is printed at the end (two errors or more: status 1).",
  "all directory trees, repositories and branches, all answers of git consistent with them and any failing git command, all goroutine schedules, all orders of Go's maps, any number of processors",
  "Depends on the interleaving of the workers with the printing loop, on every repository found, and on which git command fails where.",
  ["ripsrc/cmd/cmdbranches/cmd.go: Run, runOnDirs, runOnRepo", "ripsrc/branches.go: Branches", "ripsrc/cmd/cmdutils/repo_run.go: RunOnRepo", "ripsrc/cmd/cmdutils/errors.go"])
p("The work for a branch is linear in the commit graph",
  "What Branches reports about a branch or a pull request (its commits, the commits it branched off, how far it is behind) takes at most six walks of the commit graph: the recursive functions are called at most 6(1+L) times in all, L being the number of links from a commit to a parent, however many paths lead through the graph. The list of the default branch's commits takes at most 1+L calls.",
  "all commit graphs, heads, names and orders of map iteration for which a result is reported",
  "The number of paths in a graph with merges is exponential; a test with a small graph cannot tell a walk of the links from a walk of the paths.",
  ["/repo/ripsrc/branches2/branch_commits.go:branchCommits", "/repo/ripsrc/branches2/behind_branch.go:behindBranch", "/repo/ripsrc/branches2/process.go:getAllCommits"])
p("LastCommonParent's work is polynomial in the commit graph",
  "The number of steps LastCommonParent takes is bounded by a polynomial in the size of the graph and the number of heads. (It is not: a commit is followed again each time it is reached, so a history of n merges, 3n+1 commits, and two heads takes at least 2^n steps. Without merges, the steps are at most the heads times the levels searched.)",
  "all acyclic commit graphs and lists of heads",
  "Needs histories with many merges in a row; on those a test does not end.",
  ["/repo/ripsrc/history3/process/graph/graph.go:LastCommonParent"])
p("--profile leaves a complete profile and says where it is",
  "With --profile mem, mutex, cpu, block or trace, the commands code and branches do and say what they do without it; when they end, whatever happened, the profile is complete, and the last line names its file. Another value is refused before anything is worked on.",
  "all directory trees, all contents and failures of the repositories, all values of the flag",
  "Tests never run the commands.",
  ["/repo/ripsrc/cmd/cmdutils/profile.go:EnableProfiling", "/repo/ripsrc/cmd/cmdutils/errors.go:ExitWithErrs", "/repo/ripsrc/cmd/cmdcode/cmd.go:Run", "/repo/ripsrc/cmd/cmdbranches/cmd.go:Run"])
p("Random strings have the length and characters asked for, all equally likely",
  "random.String(count, chars) returns a string of count characters, all of them from chars, and every such string is equally likely.",
  "all lists of characters, all counts and all outcomes of the random number generator",
  "The result is random: a test sees one outcome.",
  ["/repo/ripsrc/pkg/random/random.go:String", "/repo/ripsrc/pkg/random/random.go:Bytes"])
p("A whole checkpoint encodes and decodes as one message, and Msgsize never understates",
  "Encoding a disk.Data value (rows, blames, lines and line texts) with EncodeMsg or MarshalMsg and decoding it with DecodeMsg or UnmarshalMsg gives the same value back, also when the value decoded into is in use and when other bytes follow (these are returned); MarshalMsg keeps the bytes it appends to; two different values never have the same encoding; a message that is cut off is never accepted. Msgsize of Data, DataRow, Blame, Line and LineData is never less than the number of bytes written.",
  "every Data value whose strings have less than 2^32 bytes, whose numbers are 64 bit and whose slices have less than 2^32 elements; every old value, every following or preceding bytes, every cut; for Msgsize every value at all",
  "The tests generated with the code encode empty values only; the width of every header depends on sizes, and slices are reused when decoding.",
  ["/repo/ripsrc/history3/process/repo/disk/disk_gen.go:Data.EncodeMsg", "/repo/ripsrc/history3/process/repo/disk/disk_gen.go:Data.DecodeMsg", "/repo/ripsrc/history3/process/repo/disk/disk_gen.go:Data.MarshalMsg", "/repo/ripsrc/history3/process/repo/disk/disk_gen.go:Data.UnmarshalMsg", "/repo/ripsrc/history3/process/repo/disk/disk_gen.go:Data.Msgsize", "/repo/ripsrc/history3/process/repo/disk/disk_gen.go:DataRow.Msgsize", "/repo/ripsrc/history3/process/repo/disk/disk_gen.go:Blame.Msgsize", "/repo/ripsrc/history3/process/repo/disk/disk_gen.go:Line.Msgsize", "/repo/ripsrc/history3/process/repo/disk/disk_gen.go:LineData.Msgsize", "/repo/ripsrc/history3/process/repo/disk/disk.go:Data"])
p("Calls that return everything at once return exactly what the stream delivers",
  "RunSlice and RunMap of commitmeta, and RunGetAll of the log parser and of history3/process, return all the values that Run sends on its channel, in the order sent, nothing else, and the error that Run returns; also when Run fails after sending some. No schedule of their goroutines deadlocks, panics, loses a value or returns before everything was received, and of the goroutines that send or receive these values none is left behind. If Run panics, the call does not return.",
  "every log text, commit graph, checkpoint and file, every error of Run, every schedule of the goroutines; for history3/process every log that its parser can read",
  "A test runs under one schedule; a value lost at the end of the stream, or an error read before it was written, shows only under some.",
  ["/repo/ripsrc/commitmeta/commitmeta.go:RunSlice", "/repo/ripsrc/commitmeta/commitmeta.go:RunMap", "/repo/ripsrc/history3/process/parser/parser.go:RunGetAll", "/repo/ripsrc/history3/process/process.go:RunGetAll", "/repo/ripsrc/history3/process/process.go:Run"])
p("A call leaves no goroutine behind (commitmeta)",
  "When a call of RunSlice or RunMap of commitmeta (and so a call of CodeByCommit, which makes one) has returned and nothing more can happen, none of the goroutines that it started is left; so a process that makes any number of calls does not grow by a goroutine with each of them.",
  "every log (any number of files and commits in any order), a log that does not start, every schedule of the goroutines, every series of calls in one process",
  "A goroutine that waits for ever is seen by no assertion on results, and whether a bounded channel can block the parser depends on the number of files between two reads: the statement is about every log and every schedule.",
  ["/repo/ripsrc/commitmeta/commitmeta.go:RunSlice", "/repo/ripsrc/commitmeta/commitmeta.go:RunMap", "/repo/ripsrc/commitmeta/commitmeta.go:Run", "/repo/ripsrc/code.go:CodeByCommit"])
p("The statistics of a run count what it processed",
  "After a call of Code or CodeByCommit that returned no error, GitProcessTimings tells about exactly the commits delivered by that call, each counted once: the number and the total time of the merges, those of the other commits, and the ten slowest commits with their times. A call that returns an error leaves GitProcessTimings as it was before. CodeInfoTimings counts each file that was looked at (its record is not skipped, or only as a generated file), once, over all the calls on the object. Measuring does not change what is delivered.",
  "Every log and commit graph, every checkpoint on disk and resume option, every write error, every duration of each step, every stable or unstable descending sort, every previous state of the object's cache and statistics.",
  "The counts must be right for every history shape (merges in parts, resumed runs, a merge that is the last commit) and for every way a call can end; tests have a handful of repositories and do not look at the statistics.",
  ["/repo/ripsrc/history3/process/process.go:Timing", "/repo/ripsrc/history3/process/process.go:UpdateSlowestCommitsWith", "/repo/ripsrc/history3/process/process.go:processRegularCommit", "/repo/ripsrc/history3/process/process.go:processMergeCommit", "/repo/ripsrc/code.go:CodeByCommit", "/repo/ripsrc/code_info.go:codeInfoFile", "/repo/ripsrc/ripsrc.go:Ripsrc"])
p("A patch is applied only to the file it was made for",
  "Applying git's patch of one file to blame data whose lines are not the ones the patch was made against is refused, so that a mix-up of files or versions cannot go unnoticed.",
  "every patch git can print for a changed text file with at least two lines of context, every blame data it is applied to, every commit",
  "The patches in the tests are always applied to the right file; what happens for every other file is a statement about all pairs of a patch and blame data.",
  ["ripsrc/history3/incblame/apply.go:Apply", "ripsrc/history3/process/process.go:processCommit"])
p("The printed statistics tell the truth about the run",
  "After a repository has been worked on without an error, the code command prints, for that repository, a report in lines: how many commits that are not merges were delivered and how long they took together, how many merges and how long they took, the ten slowest commits (all of them if there are fewer), slowest first, each with its time, how many they are and their total; then how many files were looked at and how long that took. These are exactly the commits delivered by the call. If the call failed, nothing of this is printed. The printed text determines every one of these values: two different statistics never print alike.",
  "every history, log, checkpoint, set of options, sequence of durations and state of the object before the call; every way to write a duration that is readable (different for different durations, without spaces and newlines)",
  "The counts belong to arbitrary histories and to all calls made before; that the text can be read back is a statement about all pairs of statistics.",
  ["ripsrc/history3/process/process.go:Timing.OutputStats", "ripsrc/code_info.go:CodeInfoTimings.OutputStats", "ripsrc/cmd/cmdcode/cmd.go:Run"])
p("The lines about memory are up to date, at most one per second, and end with the run",
  "While a command works it prints the minutes since its start and the memory in use. Each line shows the memory measured last before it was printed, and whoever prints the line has measured for this line before; the minutes lie between that moment and the printing. There is at most one line per second after the first. Once the run is over and the function returned by StartMemLogs has been called, no further line is printed and nothing is left behind.",
  "every schedule of the caller and the goroutine, every sequence of measured values, every time at which the ticker fires and they run",
  "The two read and write one variable at times no test controls; what is printed after the end depends on the schedule.",
  ["ripsrc/cmd/cmdutils/memstats.go:StartMemLogs", "ripsrc/cmd/cmdcode/cmd.go:Run", "ripsrc/cmd/cmdbranches/cmd.go:Run"])
p("The line printed for a record can be read back",
  "The line that the code command prints for a record determines what it shows: two records whose lines are equal have the same repository, commit (first eight digits), file, language, license text, counts, reason for being skipped, status and author. The same holds for the lines printed for any number of records, one after the other.",
  "every two records of any commits, files and repositories; every two sequences of records",
  "It is a statement about all pairs of records: names of files, directories, languages and authors may contain anything, also what looks like the rest of a line.",
  ["ripsrc/cmd/cmdcode/cmd.go:runOnRepo", "ripsrc/commitmeta/commitmeta.go:CommitStatus"])
p("The lines printed for branches can be read back",
  "What the branches command prints for any number of branches and pull requests determines how many they are and, for each in order, its name, the number of its commits, its first commit, and the first of its commits if it has any.",
  "every two sequences of branches whose names and ids have no spaces and no newlines (git allows no others)",
  "It is a statement about all pairs of sequences of branches.",
  ["ripsrc/cmd/cmdbranches/cmd.go:runOnRepo"])
p("The identifier of a branch tells branches apart and stays as the branch grows",
  "BranchID stays the same while commits are added to the branch and to the default branch and when the branch is merged; two branches of one repository never have the same BranchID; and a branch made under the name of a deleted one has another BranchID.",
  "all commit graphs, all ways they grow, all branch names, all map iteration orders",
  "Ranges over pairs of graphs, before and after, and over pairs of branches; tests compare the identifier of one branch of one repository.",
  ["ripsrc/branches2/process.go:branchID", "ripsrc/branches2/process.go:processBranch", "ripsrc/branches2/branch_commits.go:branchCommits", "ripsrc/branches2/branch_commits.go:dedupLinearFromHead"])
with open("/verif/properties.jsonl","w") as f:
    for x in P: f.write(json.dumps(x)+"\n")
print(len(P)); 
for x in P: print(x["id"], x["title"])
