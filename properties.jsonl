{"id": "C01", "title": "Applying a git diff reproduces the new file, line by line", "statement": "If the diff text git prints between an old and a new version of a file is parsed (incblame.Parse) and applied (incblame.Apply) to blame data holding the old version, the call succeeds and the resulting blame has exactly the lines of the new version, in order (up to the trailing carriage returns that every line scanner drops).", "quantifier": "all old files, all new files, all edit scripts git can print with two or more context lines (git's default is three), all line contents, all commit ids", "why_tests_cant": "Unit tests apply a handful of literal diffs; the claim is about every file size, hunk layout and byte content.", "anchors": ["ripsrc/history3/incblame/apply.go:Apply", "ripsrc/history3/incblame/parse.go:Parse", "ripsrc/history3/incblame/parse_utils.go:parseContext"]}
{"id": "C02", "title": "Blame attribution: kept lines keep their commit, added lines get the new commit", "statement": "After Apply, each line that the diff keeps carries the commit it carried before, and each line the diff adds carries the commit being processed; no other commit id ever appears and the result's own commit is the commit being processed.", "quantifier": "all blames, all valid edit scripts, all commit ids", "why_tests_cant": "Needs every combination of kept/added/deleted runs; tests only look at a few literals.", "anchors": ["ripsrc/history3/incblame/apply.go:Apply"]}
{"id": "C03", "title": "Hunk order is irrelevant", "statement": "Apply gives the same blame whatever the order in which the hunks of one file's diff are listed.", "quantifier": "all blames, all diffs with pairwise different old offsets, all permutations of the hunk list", "why_tests_cant": "There are n! orders; tests use only the order git prints.", "anchors": ["ripsrc/history3/incblame/apply.go:Apply sort.Slice"]}
{"id": "C04", "title": "Hunk headers are located correctly", "statement": "The position at which a hunk is applied is the position its '@@ -start,count +start,count @@' header denotes, including the abbreviated '-start' form (count 1) and the zero-count form.", "quantifier": "all hunk headers of the unified diff format", "why_tests_cant": "Header space is infinite; the abbreviated form is only tested with start 1 / on the added side.", "anchors": ["ripsrc/history3/incblame/parse_utils.go:parseContext", "ripsrc/history3/incblame/apply.go:Apply"]}
{"id": "C05", "title": "File names are recovered from diff headers", "statement": "For every path that git prints unquoted, parsing the diff of a non-rename change yields that path as both old and new path (empty old path for a creation, empty new path for a deletion), and parsing the diff of a rename yields exactly the old and the new path, spaces and ' b/' sequences included.", "quantifier": "all unquoted paths (including paths with spaces), all change kinds", "why_tests_cant": "Paths with spaces make the 'diff --git' line ambiguous; only a proof covers all of them.", "anchors": ["ripsrc/history3/incblame/parse_utils.go:parseDiffDecl", "ripsrc/history3/incblame/parse.go:parser.Parse"]}
{"id": "C06", "title": "Quoted file names are handled the same way in every change kind", "statement": "A path that git prints in double quotes (non-ASCII bytes, quotes, tabs, backslashes) is reported under one and the same name whether it is created, modified, renamed or deleted.", "quantifier": "all paths git quotes, all change kinds", "why_tests_cant": "The code has separate extraction paths per change kind; tests cover one quoted creation.", "anchors": ["ripsrc/history3/incblame/parse_utils.go:parseDiffDecl", "ripsrc/history3/incblame/parse.go:parser.Parse", "ripsrc/history3/process/process.go:processRegularCommit"]}
{"id": "C07", "title": "Merge blame: every line is attributed to the first parent that already had it", "statement": "ApplyMerge yields the merged file's lines; the commit of each line is the one recorded by the first parent (in parent order) whose diff keeps that line, and the merge commit exactly for the lines no parent had.", "quantifier": "any number of parents, all blames and per-parent edit scripts that produce the same merged file", "why_tests_cant": "Quantifies over all parent counts and all per-parent edit scripts.", "anchors": ["ripsrc/history3/incblame/apply_merge2.go:ApplyMerge"]}
{"id": "C08", "title": "Applying a diff never alters the input blame", "statement": "Apply and ApplyMerge leave the blame data they read untouched, so blame already emitted for earlier commits, or shared with other files and branches, never changes later.", "quantifier": "all histories of Apply/ApplyMerge calls over shared blame data", "why_tests_cant": "Aliasing bugs need particular sharing histories to show up.", "anchors": ["ripsrc/history3/incblame/apply.go:Apply", "ripsrc/history3/incblame/apply_merge2.go:ApplyMerge", "ripsrc/history3/process/process.go"]}
{"id": "C09", "title": "Blame equality is an equivalence that compares commit and lines", "statement": "Blame.Eq is reflexive, symmetric and transitive, and holds exactly when both blames have the same commit and the same sequence of (content, commit) lines; two blames that are Eq are interchangeable for users.", "quantifier": "all pairs and triples of blames", "why_tests_cant": "Infinite domain.", "anchors": ["ripsrc/history3/incblame/apply.go:Blame.Eq", "ripsrc/history3/incblame/apply.go:Line.Eq"]}
{"id": "C10", "title": "The patch log parser recovers every commit and diff", "statement": "Parsing the output of 'git log -p -m --pretty=short' yields one record per log entry, in order, with its hash, the parent a merge entry is diffed against, and the exact diff text of every changed file.", "quantifier": "all logs: any number of commits, any number of files, any commit messages and any file contents", "why_tests_cant": "Content lines can look like headers ('commit ', 'diff'); only a proof covers all contents.", "anchors": ["ripsrc/history3/process/parser/parser.go:Parser.Run", "ripsrc/history3/process/parser/parser.go:Parser.line"]}
{"id": "C11", "title": "Over-long lines are reported as an error, never silently truncated", "statement": "A log line longer than the scanner limit makes the parser return an error; if the parser returns without error, every byte of the log was consumed.", "quantifier": "all inputs and all line lengths", "why_tests_cant": "The limit (100 MB / 1 MB / 64 KB) is never reached in tests.", "anchors": ["ripsrc/history3/process/parser/parser.go:Parser.Run", "ripsrc/parentsgraph/parentsp/parser.go:Parser.Run", "ripsrc/commitmeta/commitmeta.go:Processor.Run"]}
{"id": "C12", "title": "The commit graph parser recovers the parent relation", "statement": "Reading 'hash@parents' log output yields exactly the commits of the log with exactly their parents in order.", "quantifier": "all logs", "why_tests_cant": "Infinite input space.", "anchors": ["ripsrc/parentsgraph/parentsp/parser.go:Parser.Run"]}
{"id": "C13", "title": "Children are the exact inverse of parents", "statement": "In a built graph, c is listed as a child of p exactly as many times as p is listed as a parent of c, every commit has an entry even without children, and each list is sorted, whatever order the runtime iterates its maps in.", "quantifier": "all parent maps, all map iteration orders", "why_tests_cant": "Map iteration order is random and the set of graphs infinite.", "anchors": ["ripsrc/parentsgraph/parents.go:childrenFromParents"]}
{"id": "C14", "title": "Reachability from the default head is exact and terminates", "statement": "The set of commits considered 'on the default branch' is exactly the set reachable from its head by parent edges, and computing it terminates on every graph.", "quantifier": "all finite graphs (even malformed, cyclic ones), all heads", "why_tests_cant": "Needs all graph shapes.", "anchors": ["ripsrc/branches2/branch_commits.go:newReachableFromHead"]}
{"id": "C15", "title": "Commits of an unmerged branch are exactly those not on the default branch", "statement": "For a branch whose head is not reachable from the default head, Commits holds every commit reachable from the branch head and not from the default head, each exactly once, and nothing else; the head is last; AheadDefaultCount is their number.", "quantifier": "all commit graphs, all default heads and branch heads", "why_tests_cant": "Needs all graph shapes.", "anchors": ["ripsrc/branches2/branch_commits.go:branchCommits", "ripsrc/branches2/process.go:processBranch"]}
{"id": "C16", "title": "Commits of a merged branch exclude what the default branch has without it", "statement": "For a branch whose head is reachable from the default head, Commits holds, each exactly once and head last, the branch head plus every ancestor of it that the default head cannot reach without passing through the branch head.", "quantifier": "all commit graphs, all heads", "why_tests_cant": "Needs all graph shapes.", "anchors": ["ripsrc/branches2/branch_commits.go:branchCommits"]}
{"id": "C17", "title": "Commits never include commits that were on the default branch before the branch was created", "statement": "The documented promise of Branch.Commits ('does not include commits that were on master before it was created, could be empty') for branches whose head is an old or the current default branch commit.", "quantifier": "all commit graphs, all heads", "why_tests_cant": "Needs all graph shapes.", "anchors": ["ripsrc/branches2/process.go:Branch.Commits", "ripsrc/branches2/branch_commits.go:branchCommits"]}
{"id": "C18", "title": "FirstCommit and Commits[0] are the first commit of the branch", "statement": "Commits[0] and FirstCommit name a commit of the branch none of whose parents is a commit of the branch, and every commit but the head has a child later in the list.", "quantifier": "all commit graphs, all heads", "why_tests_cant": "Only some graph shapes (diamonds) expose the ordering.", "anchors": ["ripsrc/branches2/process.go:processBranch", "ripsrc/branches2/branch_commits.go:branchCommits"]}
{"id": "C19", "title": "Branch points are the oldest intersections with the default branch", "statement": "BranchedFromCommits is the sorted, duplicate-free list of exactly those default-branch commits that are parents of a branch commit and have no other such commit among their ancestors; it does not depend on map iteration order.", "quantifier": "all acyclic commit graphs, all heads, all map iteration orders", "why_tests_cant": "Needs all graph shapes and iteration orders.", "anchors": ["ripsrc/branches2/branch_commits.go:dedupLinearFromHead"]}
{"id": "C20", "title": "BehindDefaultCount counts the default-branch commits missing from the branch", "statement": "For an unmerged branch with a common commit, BehindDefaultCount is the number of commits reachable from the default head and not from the branch head.", "quantifier": "all commit graphs, all heads", "why_tests_cant": "Needs graph shapes with several paths around the branch point.", "anchors": ["ripsrc/branches2/behind_branch.go:behindBranch"]}
{"id": "C21", "title": "MergeCommit names a default-branch child of the branch head", "statement": "IsMerged holds exactly when the branch head is reachable from the default head; MergeCommit is then the first (in sorted order) child of the branch head that is on the default branch, and it is set whenever IsMerged is.", "quantifier": "all commit graphs, all heads", "why_tests_cant": "Needs all graph shapes.", "anchors": ["ripsrc/branches2/merge_commit.go:getMergeCommit", "ripsrc/branches2/process.go:processBranch"]}
{"id": "C22", "title": "All commits of the default branch are listed exactly once", "statement": "The default branch record lists every commit reachable from the head exactly once with the head last; the computation panics only if the graph lacks a reachable commit.", "quantifier": "all commit graphs", "why_tests_cant": "Needs all graph shapes.", "anchors": ["ripsrc/branches2/process.go:getAllCommits"]}
{"id": "C23", "title": "Every branch and pull request is reported exactly once under every schedule", "statement": "Whatever the number of workers and their interleaving, Branches emits the default branch first (when requested), then exactly one record per branch of the branch list (how that list is read is C24) and per distinct known pull request sha, never deadlocks, and the result channel is closed once, after the last record.", "quantifier": "all worker counts, all interleavings, all ref lists", "why_tests_cant": "Tests see one schedule per run.", "anchors": ["ripsrc/branches2/process.go:Run", "ripsrc/branches2/name_hash.go:Chan", "ripsrc/branches.go:Branches"]}
{"id": "C24", "title": "Branch list parsing keeps exactly the non-default branches, sorted by name", "statement": "From the for-each-ref output, every branch except the default one and HEAD is returned once with its commit, with the origin/ prefix removed when remote branches are used, sorted by name.", "quantifier": "all ref lists, all branch names", "why_tests_cant": "Branch names may contain the field separator.", "anchors": ["ripsrc/branchmeta/branchmeta.go:Get"]}
{"id": "C25", "title": "Last common parent is a common ancestor", "statement": "LastCommonParent returns a commit reachable from all heads whenever one exists on an acyclic graph, panics exactly when none exists, and returns the latest one.", "quantifier": "all acyclic graphs and head lists", "why_tests_cant": "Needs all graph shapes.", "anchors": ["ripsrc/history3/process/graph/graph.go:LastCommonParent"]}
{"id": "C26", "title": "One result per commit, in log order", "statement": "Processing a log emits exactly one result per distinct commit, in the order of the log, merging the several log entries of a merge commit into one result.", "quantifier": "all logs in which the entries of one merge are consecutive", "why_tests_cant": "All history lengths and merge shapes.", "anchors": ["ripsrc/history3/process/process.go:Run", "ripsrc/history3/process/process.go:processCommit", "ripsrc/history3/process/process.go:processGotMergeParts"]}
{"id": "C27", "title": "Blame of every reported file equals the file in that commit", "statement": "For any history whose diffs are correct, processing succeeds and every file of every reported non-merge commit has blame whose lines are the file's lines in that commit, attributed according to the line's history; all files of the commit, changed or not, stay available to child commits with their correct blame.", "quantifier": "all histories (commit DAGs, trees, diffs)", "why_tests_cant": "Induction over unbounded histories.", "anchors": ["ripsrc/history3/process/process.go:processRegularCommit", "ripsrc/history3/process/process.go:processMergeCommit"]}
{"id": "C28", "title": "Reported files are exactly the changed files", "statement": "The files of a regular commit's result are exactly the paths its diff touches (deleted files under their old name with empty blame).", "quantifier": "all commits and diffs", "why_tests_cant": "All combinations of change kinds.", "anchors": ["ripsrc/history3/process/process.go:processRegularCommit"]}
{"id": "C29", "title": "Files removed or renamed away disappear from the tracked state", "statement": "After a commit that deletes or renames away a path, the state kept for that commit (and hence saved in checkpoints and passed to children) has no entry for that path.", "quantifier": "all histories", "why_tests_cant": "Depends on history and merge shape.", "anchors": ["ripsrc/history3/process/process.go:processRegularCommit copy unchanged", "ripsrc/history3/process/process.go:processMergeCommit second phase"]}
{"id": "C30", "title": "Merge results do not depend on map iteration order", "statement": "The result and the stored state of a merge commit are the same whatever order the runtime iterates the part and file maps in.", "quantifier": "all merges, all iteration orders", "why_tests_cant": "Map iteration order is random per run.", "anchors": ["ripsrc/history3/process/process.go:processMergeCommit"]}
{"id": "C31", "title": "Merge commits report only files that differ from every parent", "statement": "A file that is identical to some parent's file is not reported for a merge commit and keeps that parent's blame; a file changed relative to all parents is reported with the merged blame.", "quantifier": "all merges", "why_tests_cant": "All merge shapes.", "anchors": ["ripsrc/history3/process/process.go:processMergeCommit"]}
{"id": "C32", "title": "A parent's blame is never evicted while a child still needs it", "statement": "When commits arrive parents first, looking up a parent commit never fails: a commit's blame is only dropped after all its children have been processed and 1000 further commits have been finished.", "quantifier": "all graphs, all topological processing orders, any length", "why_tests_cant": "Needs histories longer than 1000 commits with arbitrary branching.", "anchors": ["ripsrc/history3/process/process.go:trimGraphAfterCommitProcessed", "ripsrc/history3/process/repo/repo.go:Unloader.Unload"]}
{"id": "C33", "title": "Memory and checkpoint size stay bounded by the open frontier", "statement": "At any time the state holds at most 1000 commits all of whose children are processed, and those are the most recently finished ones.", "quantifier": "all histories", "why_tests_cant": "Needs long histories.", "anchors": ["ripsrc/history3/process/repo/repo.go:Unloader.Unload", "ripsrc/history3/process/process.go:trimGraphAfterCommitProcessed"]}
{"id": "C34", "title": "The ten slowest commits are the ten slowest", "statement": "After any sequence of updates SlowestCommits holds the min(10,n) longest durations seen, in descending order.", "quantifier": "all update sequences", "why_tests_cant": "All histories.", "anchors": ["ripsrc/history3/process/process.go:Timing.UpdateSlowestCommitsWith"]}
{"id": "C35", "title": "Checkpoint write/read round trip", "statement": "Reading a written checkpoint gives back the same commits (those that have files), paths, blames (commit, binary flag, number and commits of the lines) with the sharing of blame objects and line objects preserved, whatever was in the directory before and however the writes were split. (Texts of lines: C36; commits without files: C37.)", "quantifier": "all repository states, all map iteration orders", "why_tests_cant": "All states; sharing and order are invisible in small tests.", "anchors": ["ripsrc/history3/process/repo/writer.go:Write", "ripsrc/history3/process/repo/reader.go:Read"]}
{"id": "C36", "title": "Line contents survive the checkpoint", "statement": "The content of each line after reading a checkpoint is the content written, although line contents are stored under a 64-bit hash.", "quantifier": "all repository states, all line contents", "why_tests_cant": "Hash collisions never show up in tests.", "anchors": ["ripsrc/history3/process/repo/writer.go:Write xxhash", "ripsrc/history3/process/repo/reader.go:Read"]}
{"id": "C37", "title": "Commits without files survive the checkpoint", "statement": "A commit whose tree is empty is still known after reading the checkpoint, so processing can continue on top of it.", "quantifier": "all repository states", "why_tests_cant": "Needs histories with empty trees combined with incremental runs.", "anchors": ["ripsrc/history3/process/repo/writer.go:Write", "ripsrc/history3/process/repo/repo.go:AddCommit", "ripsrc/history3/process/repo/repo.go:GetCommitMust"]}
{"id": "C38", "title": "Resuming from a checkpoint gives the same results as one full run", "statement": "Processing a log in one run, or processing a prefix, saving the checkpoint, reading it in a new process and processing the rest, emits the same results for the rest.", "quantifier": "all histories and all split points", "why_tests_cant": "All histories and split points.", "anchors": ["ripsrc/history3/process/process.go:initCheckpoints", "ripsrc/history3/process/process.go:Run", "ripsrc/history3/process/repo/writer.go:Write", "ripsrc/history3/process/repo/reader.go:Read"]}
{"id": "C39", "title": "Strict resume refuses a checkpoint of another commit", "statement": "Unless NoStrictResume is set, an incremental run succeeds in reading the checkpoint only if it was written after exactly the requested commit; otherwise an error naming both commits is returned and nothing is emitted.", "quantifier": "all checkpoint contents and requests", "why_tests_cant": "All histories.", "anchors": ["ripsrc/history3/process/repo/reader.go:Read", "ripsrc/history3/process/process.go:initCheckpoints"]}
{"id": "C40", "title": "Crash safety: a checkpoint is read completely or not at all", "statement": "Whatever point a crash interrupts writing at, a later read returns the complete old checkpoint, the complete new checkpoint, or an error; never a mixture or part of one.", "quantifier": "all crash points, all removal orders, all old and new states", "why_tests_cant": "Crash points cannot be enumerated by tests.", "anchors": ["ripsrc/history3/process/repo/writer.go:Write", "ripsrc/history3/process/repo/msgp.go:Finish", "ripsrc/history3/process/repo/reader.go:Read"]}
{"id": "C41", "title": "Crash safety: a crash never loses both checkpoints", "statement": "Whatever point a crash interrupts writing at, a readable checkpoint (old or new) remains if there was one before.", "quantifier": "all crash points", "why_tests_cant": "Crash points cannot be enumerated by tests.", "anchors": ["ripsrc/history3/process/repo/writer.go:Write RemoveAll/Rename"]}
{"id": "C42", "title": "Truncated checkpoint files are detected", "statement": "Reading a checkpoint whose files were cut short returns an error instead of a smaller repository.", "quantifier": "all truncation points", "why_tests_cant": "All truncation points of all files.", "anchors": ["ripsrc/history3/process/repo/reader.go:msgIsEOF", "ripsrc/history3/process/repo/msgp.go:Finish"]}
{"id": "C43", "title": "Checkpoint records decode to what was encoded", "statement": "For each of the four on-disk record types, decoding the bytes produced by encoding yields the same record and leaves exactly the following bytes; hence streams of records decode to the same streams.", "quantifier": "all records: all strings, byte strings, pointer lists and 64-bit numbers", "why_tests_cant": "Generated tests use zero values only.", "anchors": ["ripsrc/history3/process/repo/disk/disk_gen.go", "ripsrc/history3/process/repo/disk/disk.go"]}
{"id": "C44", "title": "CommitFromMakeNonIncl skips checkpoints", "statement": "With CommitFromMakeNonIncl set, no checkpoint is read or written (documented on the option).", "quantifier": "all option combinations and states", "why_tests_cant": "Documented behaviour over all states.", "anchors": ["ripsrc/ripsrc.go:Opts.CommitFromMakeNonIncl", "ripsrc/history3/process/process.go:initCheckpoints", "ripsrc/history3/process/process.go:Run"]}
{"id": "C45", "title": "The commit metadata parser recovers every commit of the log", "statement": "Parsing the metadata log yields each commit once, in order, numbered 1,2,3,..., with its hash, parents, author, committer, date and subject, and its changed files with status, line counts and binary flag.", "quantifier": "all logs: any subjects, names, files", "why_tests_cant": "Infinite input space; subjects and names are attacker controlled.", "anchors": ["ripsrc/commitmeta/commitmeta.go:parser.parse", "ripsrc/commitmeta/commitmeta.go:Processor.Run"]}
{"id": "C46", "title": "Changed file statistics are keyed by the file's real name", "statement": "The additions/deletions of a plain (non-rename) change are recorded under the path itself for every path.", "quantifier": "all paths", "why_tests_cant": "Paths may contain ' => ' or braces.", "anchors": ["ripsrc/commitmeta/commitmeta.go:getFilename"]}
{"id": "C47", "title": "Each reported file record combines blame and metadata of the same commit and path", "statement": "Every BlameResult has the filename and commit it was computed for; there is exactly one per path that is both in the blame result and in the commit's file list (empty path excluded); removed files carry status removed, no lines and the removal skip reason.", "quantifier": "all blame results and metadata, all iteration orders", "why_tests_cant": "All combinations.", "anchors": ["ripsrc/code_info.go:codeInfoFiles"]}
{"id": "C48", "title": "Lines of a record mirror the blame", "statement": "A non-skipped record has one line per blame line, in order, each with the blame's commit and that commit's author, email and date; the line classification reported by the counter is attached to the right line and to no other.", "quantifier": "all blames, all metadata maps, all classification callback sequences", "why_tests_cant": "All callback sequences.", "anchors": ["ripsrc/code_info.go:codeInfoFile", "ripsrc/code_info.go:codeStats", "ripsrc/code_info.go:ProcessLine"]}
{"id": "C49", "title": "Line authorship is complete in incremental runs", "statement": "Also when processing starts from a given commit, every line of a record carries the author of the commit it is attributed to.", "quantifier": "all incremental runs", "why_tests_cant": "Depends on lines older than the start commit.", "anchors": ["ripsrc/code_info.go:codeInfoFile", "ripsrc/commit_info.go:getCommitInfo"]}
{"id": "C50", "title": "Files classified as source respect all limits", "statement": "A file that is not skipped has at most 1,000,000 bytes, at most 40,000 lines, no line over 1096 bytes, a known language, is not a license file and passes the path filters; and conversely each violated limit is reported with the documented precedence.", "quantifier": "all paths, contents and lines; all behaviours of the external classifiers", "why_tests_cant": "Boundary values over infinite domains.", "anchors": ["ripsrc/fileinfo/fileinfo.go:GetInfo"]}
{"id": "C51", "title": "The path filter cache is transparent", "statement": "Classification of a path never depends on which files were classified before.", "quantifier": "all call histories", "why_tests_cant": "All call histories.", "anchors": ["ripsrc/fileinfo/fileinfo.go:checkFilePath"]}
{"id": "C52", "title": "Generated files are dropped from statistics", "statement": "A record is marked generated exactly when the counter reported a comment line whose text contains one of the generator markers, and then has no language and the generated skip reason.", "quantifier": "all contents and callback sequences", "why_tests_cant": "All callback sequences.", "anchors": ["ripsrc/code_info.go:ProcessLine", "ripsrc/code_info.go:codeStats"]}
{"id": "C53", "title": "Code delivers the records of all commits in commit order under every schedule", "statement": "Under every interleaving of the goroutines, Code emits the records of commit 1, then of commit 2, and so on, each record once, never deadlocks while the caller keeps receiving, and closes the channel exactly once after the last record.", "quantifier": "all interleavings, all results", "why_tests_cant": "Tests see one schedule.", "anchors": ["ripsrc/code.go:Code", "ripsrc/code.go:CodeByCommit", "ripsrc/history3/process/process.go:Run", "ripsrc/history3/process/parser/parser.go:Run"]}
{"id": "C54", "title": "Errors end the stream cleanly", "statement": "If processing fails at some commit, exactly the results of the earlier commits are delivered, then the channel is closed and the error returned, under every schedule, without deadlock.", "quantifier": "all interleavings, all failure points", "why_tests_cant": "Failure points times schedules.", "anchors": ["ripsrc/history3/process/process.go:Run drainAndExit", "ripsrc/code.go:CodeByCommit"]}
{"id": "C55", "title": "git blame porcelain output is parsed exactly", "statement": "Parsing porcelain blame output yields each line's commit and exact content, in order, and the metadata of the commit's first occurrence for repeated commits.", "quantifier": "all blame outputs, all contents", "why_tests_cant": "Infinite input space.", "anchors": ["ripsrc/gitblame2/parse_output.go:parseOutput"]}
{"id": "C56", "title": "Repository discovery visits exactly the repositories", "statement": "Iterating a directory calls back once for each repository found within the recursion limit, in directory order, does not descend into a repository, and stops at the first callback error.", "quantifier": "all directory trees and limits", "why_tests_cant": "All directory shapes.", "anchors": ["ripsrc/pkg/gitrepos/gitrepos.go:IterDir"]}
{"id": "C57", "title": "Blame does not depend on the user's diff.context setting", "statement": "The blame computed for a change is the same whatever number of context lines the user has configured git to print (diff.context), down to one and zero.", "quantifier": "all files, edit scripts and context settings", "why_tests_cant": "Tests run with git's default of three context lines only.", "anchors": ["ripsrc/history3/incblame/parse_utils.go:parseContext", "ripsrc/history3/incblame/apply.go:Apply", "ripsrc/history3/process/process.go:gitLogPatches"]}
{"id": "C58", "title": "Results do not depend on the user's git configuration", "statement": "History processing gives the same results whatever options the user has set in the git configuration: how patches and commits are shown (diff.suppressBlankEmpty, diff.noprefix, log.decorate, color.ui, log.showSignature, log.showRoot) and how renames and copies are looked for (diff.renames).", "quantifier": "all configurations and all repositories", "why_tests_cant": "Tests run with a clean configuration.", "anchors": ["ripsrc/history3/process/process.go:gitLogPatches", "ripsrc/history3/process/parser/parser.go:Parser.line", "ripsrc/history3/incblame/parse_utils.go:parseDiffDecl"]}
{"id": "C59", "title": "A checkpoint belongs to the last commit of a completed run", "statement": "A run writes a checkpoint only if it processed the whole log without error; the checkpoint's version is the hash of the log's last commit. A run that fails, panics or has nothing to do leaves the checkpoint as it was.", "quantifier": "all logs, options, checkpoint directories and failures", "why_tests_cant": "Tests only resume from successful runs.", "anchors": ["ripsrc/history3/process/process.go:Process.Run", "ripsrc/history3/process/repo/writer.go:CheckpointWriter.Write"]}
{"id": "C60", "title": "A full run reports every changed file of every commit, with the right lines and authors", "statement": "A full run of Code on a repository delivers, for every commit in the order of the log and every file the commit changed, exactly one record with that commit and the kind of change; unless the file is skipped the record has one line per line of the file, each with the commit that introduced it and that commit's author and date. This holds whatever the order of the two logs, of Go's maps and of the goroutines.", "quantifier": "all repositories, all topological orders, all schedules and map orders", "why_tests_cant": "It composes parsers, processing, metadata and goroutines; each test repository exercises one history and one schedule.", "anchors": ["ripsrc/code.go:Code", "ripsrc/code_info.go:codeInfoFiles", "ripsrc/history3/process/process.go:Process.Run", "ripsrc/commitmeta/commitmeta.go:Processor"]}
{"id": "C61", "title": "FirstCommit of the default branch is a root commit", "statement": "The FirstCommit reported for the default branch is the id of a commit without parents that is reachable from the default branch's head.", "quantifier": "all histories, any number of roots", "why_tests_cant": "Test repositories have one root.", "anchors": ["ripsrc/branches2/process.go:getFirstCommit", "ripsrc/branches2/process.go:Run"]}
{"id": "C62", "title": "Git's output is read completely or the program stops", "statement": "Whatever the pieces in which git's output arrives and whatever the schedule, a reader of a git command gets a prefix of the output in order, sees the end of the file only after all of the output of a git command that succeeded, and if git fails, or the reader stops before it has read everything, the program crashes instead of going on with part of the output. A reader that reads to the end of a successful command never sees a crash, and reading always ends.", "quantifier": "all outputs, pieces, readers, exit statuses and schedules", "why_tests_cant": "Depends on the sizes of the operating system's buffers and on the scheduler.", "anchors": ["ripsrc/gitexec/gitexec.go:ExecPiped", "ripsrc/gitexec/gitexec.go:ExecIntoWriter"]}
{"id": "C63", "title": "What is parsed does not depend on how git's output arrives", "statement": "The lines given to the parsers of git's output are the lines of the whole output, whatever the pieces in which it arrives and whatever the schedule.", "quantifier": "all outputs, pieces, schedules and callers", "why_tests_cant": "Tests see the pieces their machine happens to produce.", "anchors": ["ripsrc/gitexec/gitexec.go:ExecPiped", "ripsrc/history3/process/parser/parser.go:Parser.Run", "ripsrc/commitmeta/commitmeta.go:Processor.Run"]}
{"id": "C64", "title": "The commands work on every repository of the directory", "statement": "The commands code and branches work on every git repository that is the directory or one level below it, each exactly once and in the order of the names, whichever of them fail; the numbers of repositories, skipped empty repositories, records and the list of failures printed at the end are right.", "quantifier": "all directory trees, all contents and failures of the repositories", "why_tests_cant": "Tests never run the commands.", "anchors": ["ripsrc/cmd/cmdcode/cmd.go:runOnDirs", "ripsrc/cmd/cmdbranches/cmd.go:runOnDirs", "ripsrc/cmd/cmdutils/repo_run.go:RunOnRepo", "ripsrc/pkg/gitrepos/gitrepos.go:IterDir"]}
{"id": "C65", "title": "The exit status of the commands tells whether they worked", "statement": "The commands exit with a status other than 0, and do not say that they finished, if the directory cannot be searched, holds no repository, or the work on any repository failed; every failure is printed.", "quantifier": "all directory trees and all failures", "why_tests_cant": "Tests never run the commands.", "anchors": ["ripsrc/cmd/cmdutils/errors.go:ExitWithErr", "ripsrc/cmd/cmdutils/errors.go:ExitWithErrs", "ripsrc/cmd/cmdcode/cmd.go:Run"]}
{"id": "C66", "title": "The line printed for a record shows the record", "statement": "The command code prints for every record the record's status and its numbers of lines, code lines, comment lines, blank lines and its complexity, and never fails while printing.", "quantifier": "all records Code can deliver", "why_tests_cant": "Tests never run the commands.", "anchors": ["ripsrc/cmd/cmdcode/cmd.go:runOnRepo"]}
{"id": "C67", "title": "The logs of one run agree", "statement": "The logs a run takes from git, of the patches and of the metadata of the commits, show the same commits; the graph of the commits that the run uses has all of them and all of their parents.", "quantifier": "all repositories and options", "why_tests_cant": "Tests have small linear repositories and few combinations of the options.", "anchors": ["ripsrc/code.go:Code", "ripsrc/commit_info.go:getCommitInfo", "ripsrc/history3/process/process.go:gitLogPatches", "ripsrc/commitmeta/commitmeta.go:gitLogJSON", "ripsrc/parentsgraph/parents.go:Read"]}
{"id": "C68", "title": "Which commits a run covers", "statement": "A full run covers the commits reachable from HEAD, with AllBranches from any ref. A run with CommitFromIncl covers that commit and every commit of HEAD (with AllBranches of any ref) that descends from it, and a commit it does not cover belongs to the history of that commit; with CommitFromMakeNonIncl the commit itself is left out.", "quantifier": "all repositories, options and starting commits", "why_tests_cant": "Tests start from one commit in the middle of a linear history.", "anchors": ["ripsrc/history3/process/process.go:gitLogPatches", "ripsrc/commitmeta/commitmeta.go:gitLogJSON", "ripsrc/ripsrc.go:Opts"]}
{"id": "C69", "title": "Each call on one object sees the repository as it is at the call", "statement": "A call of Code, CodeByCommit or Branches on an object gives what the same call on a new object would give: earlier calls on the object do not matter, also when commits were added to the repository in between.", "quantifier": "all sequences of calls on one object and all repositories at the time of each call", "why_tests_cant": "Tests make one call on each object.", "anchors": ["ripsrc/ripsrc.go:buildCommitGraph", "ripsrc/code.go:Code", "ripsrc/branches.go:Branches"]}
{"id": "C70", "title": "A call sees one state of the repository", "statement": "If commits are added to the repository while Code is running, the call delivers the records of the repository as it was at one moment of the call, or returns an error.", "quantifier": "all repositories, all moments at which commits are added, all schedules", "why_tests_cant": "Tests never change the repository during a call.", "anchors": ["ripsrc/code.go:CodeByCommit", "ripsrc/commit_info.go:getCommitInfo", "ripsrc/ripsrc.go:buildCommitGraph", "ripsrc/history3/process/process.go:gitLogPatches"]}
{"id": "C71", "title": "CodeByCommit delivers every commit with its own records", "statement": "Under every schedule, CodeByCommit delivers each processed commit once and in the order of the log, each with a channel on which exactly the records of that commit arrive (the same records Code delivers) and which is then closed; nothing deadlocks or panics, and at the end the commit channel is closed, all goroutines that read, process or deliver commits have returned and the call has returned its result.", "quantifier": "all patch logs, metadata, schedules, and callers that read everything", "why_tests_cant": "Tests see one schedule and one way of reading the channels.", "anchors": ["ripsrc/code.go:CodeByCommit", "ripsrc/code.go:Code"]}
{"id": "C72", "title": "A caller may stop reading", "statement": "A caller that does not want all commits or all records may stop reading: the call still returns, and a caller that ignores the records of a commit still gets the next commit.", "quantifier": "all patch logs, all schedules, all ways of reading the channels", "why_tests_cant": "Tests read everything.", "anchors": ["ripsrc/code.go:CodeByCommit", "ripsrc/code.go:Code"]}
{"id": "C73", "title": "Two calls on one repository give the same records", "statement": "Two calls of Code on an unchanged repository with the same options deliver the same records, commit by commit (in any order within a commit), return the same and save the same state, whatever the order in which Go visits its maps and whatever the schedule.", "quantifier": "all repositories and options, all iteration orders, all schedules, all earlier uses of the file classifier's cache", "why_tests_cant": "A test run has one schedule and one iteration order, which differ from run to run.", "anchors": ["ripsrc/code.go:Code", "ripsrc/history3/process/process.go:processMergeCommit", "ripsrc/code_info.go:codeInfoFiles", "ripsrc/fileinfo/fileinfo.go:GetInfo"]}
{"id": "C74", "title": "Names and markers are tested by the regular expressions in the code", "statement": "A path is on the exclusion list, or is looked at as a possible licence, exactly if the regular expression written for it in the code matches some part of the path; a comment line announces a generated file exactly if the expression for the markers matches some part of it.", "quantifier": "all paths and all comment lines", "why_tests_cant": "Tests have a handful of paths; the expression has more than two hundred alternatives.", "anchors": ["ripsrc/fileinfo/gitignore.go:ignorePatterns", "ripsrc/fileinfo/license.go:possibleLicense", "ripsrc/code_info.go:generatedRegexp"]}
{"id": "C75", "title": "Every pattern of the pattern file excludes the paths it matches", "statement": "A path is excluded by the exclusion list exactly if the pattern on some line of custom_patterns.txt matches it; for every pattern file, the generated expression matches what its patterns match and nothing else.", "quantifier": "all paths and all pattern files", "why_tests_cant": "No test compares the list with the file it is generated from.", "anchors": ["genignore.go:parseFile", "genignore.go:main", "custom_patterns.txt", "ripsrc/fileinfo/gitignore.go:ignorePatterns"]}
{"id": "C76", "title": "The validation command says SUCCESS only if both blames agree", "statement": "If validate_inc_blame prints SUCCESS for a repository, then for every commit and file the incremental blame has the same lines, with the same texts and commits, as git blame; it complains about exactly the files for which they differ.", "quantifier": "all repositories, all answers of git blame, all orders of visiting files", "why_tests_cant": "The command has no tests; it is the tool that is used to test the rest.", "anchors": ["cmd/validate.go:validateIncBlameCmd", "ripsrc/gitblame2/gitblame.go:Run"]}
{"id": "C77", "title": "Code on a repository delivers the right records for every commit of its history", "statement": "For every repository: a call of Code without a checkpoint asks git for what it needs with the right arguments, neither crashes nor waits for ever, and delivers for each commit of HEAD's history (with AllBranches: of every ref) exactly once, parents first, exactly the right records (changed files, status, author, and for each line the commit that brought it), then closes the channel and returns.", "quantifier": "all repositories, all answers git may give by its documentation, all map orders, all schedules", "why_tests_cant": "The whole call, from the git commands to the last record; tests compare a few repositories.", "anchors": ["ripsrc/code.go:Code", "ripsrc/code.go:CodeByCommit", "ripsrc/gitexec/gitexec.go:ExecPiped", "ripsrc/gitexec/prepare.go:Prepare", "ripsrc/parentsgraph/parents.go:Read", "ripsrc/commitmeta/commitmeta.go:RunMap", "ripsrc/history3/process/process.go:Run", "ripsrc/history3/process/process.go:slowGitBlame"]}
{"id": "C78", "title": "Cancelling the context ends the call", "statement": "When the context that was passed to Code is cancelled, the git commands of the call are ended and the call returns an error.", "quantifier": "all repositories, all moments of cancelling", "why_tests_cant": "No test cancels a context.", "anchors": ["ripsrc/code.go:CodeByCommit", "ripsrc/gitexec/gitexec.go:ExecPiped", "ripsrc/parentsgraph/parents.go:gitLog", "ripsrc/commitmeta/commitmeta.go:gitLog", "ripsrc/history3/process/process.go:gitLogPatches"]}
{"id": "C79", "title": "A call leaves no temporary files behind", "statement": "The temporary files a call makes for git are removed before the call returns.", "quantifier": "all repositories and options, all ways for the call to end", "why_tests_cant": "Tests do not look at the directory for temporary files.", "anchors": ["ripsrc/commitmeta/commitmeta.go:gitLog", "ripsrc/history3/process/process.go:gitLogPatches"]}
{"id": "C80", "title": "Branches on a repository delivers the right record for every branch and pull request", "statement": "For every repository: a call of Branches (with AllBranches) asks git for what it needs with the right arguments, neither crashes nor waits for ever, and delivers first the default branch with all its commits, then exactly one record for each other branch (of origin, if so asked) and for each distinct pull request head that is in the repository, each with the right commits, heads, places of branching off, merge commit and counts, then closes the channel and returns; without AllBranches it returns an error.", "quantifier": "all repositories, all answers git may give by its documentation, all map orders, all schedules", "why_tests_cant": "The whole call, from the git commands to the last record; tests compare a few repositories.", "anchors": ["ripsrc/branches.go:Branches", "ripsrc/branches2/process.go:Run", "ripsrc/branchmeta/branchmeta.go:Get", "ripsrc/branchmeta/default.go:GetDefault", "ripsrc/parentsgraph/parents.go:Read"]}
{"id": "C81", "title": "A failed git command makes Branches return an error", "statement": "If any of the git commands a call of Branches runs fails, the call returns an error, all its goroutines have returned, and the caller has received nothing but possibly the record of the default branch.", "quantifier": "all repositories, all sets of failing commands, all schedules", "why_tests_cant": "Tests do not make git fail.", "anchors": ["ripsrc/branches.go:Branches", "ripsrc/branches2/process.go:Run", "ripsrc/branches2/process.go:getFirstCommit", "ripsrc/branchmeta/branchmeta.go:Get", "ripsrc/gitexec/gitexec.go:ExecPiped"]}
{"id": "C82", "title": "Calls of Code that continue each other deliver every commit once, with the right records", "statement": "A call of Code with CommitFromIncl, on a repository that has only grown since the call that left the checkpoint, delivers for each commit on HEAD that is not an ancestor of that commit's first parent, exactly once and parents first, exactly the right records, and leaves a checkpoint from which the next call can go on.", "quantifier": "all repositories and the ways they grow, all answers git may give, all map orders and schedules of both calls, all splits of the checkpoint's writes", "why_tests_cant": "Two whole calls and the files between them; tests run a few fixed pairs.", "anchors": ["ripsrc/code.go:Code", "ripsrc/code.go:CodeByCommit", "ripsrc/history3/process/process.go:initCheckpoints", "ripsrc/history3/process/process.go:Run", "ripsrc/history3/process/process.go:gitLogPatches", "ripsrc/commitmeta/commitmeta.go:gitLog", "ripsrc/history3/process/repo/reader.go:Read", "ripsrc/history3/process/repo/writer.go:Write"]}
{"id": "C83", "title": "A failed git command makes Code return an error, and never passes for a complete result", "statement": "If git commands fail during a call of Code (or its temporary files cannot be made), the call returns an error; whatever happens, what the caller received are the right records of the first commits, and a call that returns without an error has delivered all of them.", "quantifier": "all repositories, all sets of failing commands, all map orders and schedules, full and incremental calls", "why_tests_cant": "Tests do not make git fail.", "anchors": ["ripsrc/code.go:Code", "ripsrc/code.go:CodeByCommit", "ripsrc/gitexec/gitexec.go:ExecPiped", "ripsrc/gitexec/prepare.go:Prepare", "ripsrc/commitmeta/commitmeta.go:gitLog", "ripsrc/history3/process/process.go:gitLogPatches", "ripsrc/history3/process/process.go:slowGitBlame", "ripsrc/gitblame2/gitblame.go:Run"]}
{"id": "C84", "title": "A series of calls of Code, each continuing the one before, delivers the whole history of a growing repository", "statement": "However often Code is called on a repository that only grows, each call continuing at the commit the last checkpoint was written for: every call works whatever was branched and merged in between, together the calls deliver the right records of every commit on HEAD, and each commit exactly once if the later calls leave the starting commit out and HEAD only moves forward.", "quantifier": "all series of calls of any length, all ways the repository grows between them, all answers git may give, all map orders and schedules of every call", "why_tests_cant": "Needs arbitrarily long series of calls; tests run at most two.", "anchors": ["ripsrc/code.go:Code", "ripsrc/history3/process/process.go:initCheckpoints", "ripsrc/history3/process/process.go:Run", "ripsrc/history3/process/process.go:trimGraphAfterCommitProcessed", "ripsrc/history3/process/repo/repo.go:Unload", "ripsrc/history3/process/repo/reader.go:Read", "ripsrc/history3/process/repo/writer.go:Write"]}
{"id": "C85", "title": "CodeByCommit on a repository delivers every commit with its own metadata and records", "statement": "A call of CodeByCommit delivers each selected commit exactly once, parents first, each with the id, authors, date, message, parents and changed files git has for it and on its own channel exactly the right records, the same records in the same order as a call of Code; the channels are closed and the call returns, whatever the caller does.", "quantifier": "all repositories, all answers git may give, all map orders and schedules, full and incremental calls, all callers", "why_tests_cant": "Tests run a few repositories with one caller that reads everything.", "anchors": ["ripsrc/code.go:CodeByCommit", "ripsrc/code.go:Code", "ripsrc/commitmeta/commitmeta.go:RunMap", "ripsrc/code_info.go:codeInfoFiles"]}
{"id": "C86", "title": "The licence reported for a file depends only on what the detector finds", "statement": "For a file that may be a licence, the licence reported is one the licence database finds, with a confidence of at least 0.85, and none it finds is more likely; none is reported if none is likely enough; the same content gives the same licence in every call.", "quantifier": "all results of the licence database, all map iteration orders, all behaviours of the unstable sort", "why_tests_cant": "Map iteration order and an unstable sort decide between equally likely licences; a test sees one order.", "anchors": ["ripsrc/fileinfo/license_enabled.go:detect", "ripsrc/fileinfo/license_disabled.go:detect", "ripsrc/fileinfo/fileinfo.go:GetInfo"]}
{"id": "C87", "title": "A cached git command returns what git would print now", "statement": "gitexec.ExecWithCache returns, for a command in a repository, a reader of exactly what git would print for that command in that repository now (or an error if git fails), whether the output is taken from the cache or not, and whatever crashed before.", "quantifier": "every sequence of calls with any arguments in any states of the repository, each cut off by a crash after any of its file operations; every later call; two calls at a time under every schedule", "why_tests_cant": "a test runs a few calls without crashes on a repository that does not change; the property quantifies over histories of calls, states of the repository, crash points and schedules", "anchors": ["ripsrc/gitexec/gitexec.go: ExecWithCache, execToFile, headCommit, newGzipFileCloser"]}
{"id": "C88", "title": "The blame of a commit names its files", "statement": "gitblamecommit.Blame returns, for a commit, a map whose keys are exactly the paths of the files of that commit, each with a binary placeholder, and an error if git fails.", "quantifier": "every commit, with any number of files and any names", "why_tests_cant": "names with blanks at the ends or that git quotes, and commits without files, are not in a test repository; the property quantifies over all trees", "anchors": ["ripsrc/history3/process/gitblamecommit/gitblamecommit.go: Blame, listOfFiles"]}
{"id": "C89", "title": "Lines of the log are whole and in order", "statement": "Whatever goroutines log at the same time, the writer gets whole lines, one per call (kind, message, pairs), those of each goroutine in the order of its calls; no call blocks for ever; arguments that are not pairs of a string and a value are reported in an extra line and do not lose the message.", "quantifier": "every number of goroutines, every list of calls of each with any arguments, every schedule, every moment", "why_tests_cant": "a test sees one schedule; the property quantifies over all interleavings of the writes of all goroutines", "anchors": ["ripsrc/pkg/logger/logger.go: NewDefaultLogger, DefaultLogger.Info, DefaultLogger.Debug, log, formatArgs"]}
{"id": "C90", "title": "The command `ripsrc code` prints one right line per record and goes on", "statement": "For the repositories in the given directory or one level down, in the order of their paths, `ripsrc code` prints, for each commit to be processed (all of HEAD's history, or with --sha the named commit and the later ones), parents first, a line with its id and date and then one line for each of its records, which shows the repository, the first 8 digits of the commit's id, the file, language, license, counts, why it was skipped, the status of the file and the author (the e-mail address if there is no name); then the number of records of the repository; at the end the number of repositories and of all records, with status 0. Repositories without commits are counted and left out; one the command cannot work on does not end it: the others are worked on and the error is printed at the end.", "quantifier": "all directory trees, repositories and histories, all answers of git consistent with them, all goroutine schedules, all orders of Go's maps, with and without --sha", "why_tests_cant": "Depends on the interleaving of the pipeline's goroutines with the printing loop, on every repository found, and on index expressions (SHA[0:8], Files[name]) that panic for some inputs.", "anchors": ["ripsrc/cmd/cmdcode/cmd.go: Run, runOnRepo", "ripsrc/ripsrc/code_by_commit.go: CodeByCommit", "ripsrc/pkg/gitrepos/gitrepos.go", "ripsrc/commitmeta/commitmeta.go: Author"]}
{"id": "C91", "title": "The command `ripsrc branches` prints one right line per branch and goes on", "statement": "For the repositories in the given directory or one level down, in the order of their paths, `ripsrc branches` prints a line for the default branch and one for each other branch of origin, each once, with its name, the number of its commits, its first commit and the first of its commits; at the end the number of repositories, with status 0. Repositories without commits are counted and left out; if a git command fails in one, at most the line of its default branch is printed, the other repositories are worked on, and the error is printed at the end (two errors or more: status 1).", "quantifier": "all directory trees, repositories and branches, all answers of git consistent with them and any failing git command, all goroutine schedules, all orders of Go's maps, any number of processors", "why_tests_cant": "Depends on the interleaving of the workers with the printing loop, on every repository found, and on which git command fails where.", "anchors": ["ripsrc/cmd/cmdbranches/cmd.go: Run, runOnDirs, runOnRepo", "ripsrc/branches.go: Branches", "ripsrc/cmd/cmdutils/repo_run.go: RunOnRepo", "ripsrc/cmd/cmdutils/errors.go"]}
{"id": "C92", "title": "The work for a branch is linear in the commit graph", "statement": "What Branches reports about a branch or a pull request (its commits, the commits it branched off, how far it is behind) takes at most six walks of the commit graph: the recursive functions are called at most 6(1+L) times in all, L being the number of links from a commit to a parent, however many paths lead through the graph. The list of the default branch's commits takes at most 1+L calls.", "quantifier": "all commit graphs, heads, names and orders of map iteration for which a result is reported", "why_tests_cant": "The number of paths in a graph with merges is exponential; a test with a small graph cannot tell a walk of the links from a walk of the paths.", "anchors": ["/repo/ripsrc/branches2/branch_commits.go:branchCommits", "/repo/ripsrc/branches2/behind_branch.go:behindBranch", "/repo/ripsrc/branches2/process.go:getAllCommits"]}
{"id": "C93", "title": "LastCommonParent's work is polynomial in the commit graph", "statement": "The number of steps LastCommonParent takes is bounded by a polynomial in the size of the graph and the number of heads. (It is not: a commit is followed again each time it is reached, so a history of n merges, 3n+1 commits, and two heads takes at least 2^n steps. Without merges, the steps are at most the heads times the levels searched.)", "quantifier": "all acyclic commit graphs and lists of heads", "why_tests_cant": "Needs histories with many merges in a row; on those a test does not end.", "anchors": ["/repo/ripsrc/history3/process/graph/graph.go:LastCommonParent"]}
{"id": "C94", "title": "--profile leaves a complete profile and says where it is", "statement": "With --profile mem, mutex, cpu, block or trace, the commands code and branches do and say what they do without it; when they end, whatever happened, the profile is complete, and the last line names its file. Another value is refused before anything is worked on.", "quantifier": "all directory trees, all contents and failures of the repositories, all values of the flag", "why_tests_cant": "Tests never run the commands.", "anchors": ["/repo/ripsrc/cmd/cmdutils/profile.go:EnableProfiling", "/repo/ripsrc/cmd/cmdutils/errors.go:ExitWithErrs", "/repo/ripsrc/cmd/cmdcode/cmd.go:Run", "/repo/ripsrc/cmd/cmdbranches/cmd.go:Run"]}
{"id": "C95", "title": "Random strings have the length and characters asked for, all equally likely", "statement": "random.String(count, chars) returns a string of count characters, all of them from chars, and every such string is equally likely.", "quantifier": "all lists of characters, all counts and all outcomes of the random number generator", "why_tests_cant": "The result is random: a test sees one outcome.", "anchors": ["/repo/ripsrc/pkg/random/random.go:String", "/repo/ripsrc/pkg/random/random.go:Bytes"]}
{"id": "C96", "title": "A whole checkpoint encodes and decodes as one message, and Msgsize never understates", "statement": "Encoding a disk.Data value (rows, blames, lines and line texts) with EncodeMsg or MarshalMsg and decoding it with DecodeMsg or UnmarshalMsg gives the same value back, also when the value decoded into is in use and when other bytes follow (these are returned); MarshalMsg keeps the bytes it appends to; two different values never have the same encoding; a message that is cut off is never accepted. Msgsize of Data, DataRow, Blame, Line and LineData is never less than the number of bytes written.", "quantifier": "every Data value whose strings have less than 2^32 bytes, whose numbers are 64 bit and whose slices have less than 2^32 elements; every old value, every following or preceding bytes, every cut; for Msgsize every value at all", "why_tests_cant": "The tests generated with the code encode empty values only; the width of every header depends on sizes, and slices are reused when decoding.", "anchors": ["/repo/ripsrc/history3/process/repo/disk/disk_gen.go:Data.EncodeMsg", "/repo/ripsrc/history3/process/repo/disk/disk_gen.go:Data.DecodeMsg", "/repo/ripsrc/history3/process/repo/disk/disk_gen.go:Data.MarshalMsg", "/repo/ripsrc/history3/process/repo/disk/disk_gen.go:Data.UnmarshalMsg", "/repo/ripsrc/history3/process/repo/disk/disk_gen.go:Data.Msgsize", "/repo/ripsrc/history3/process/repo/disk/disk_gen.go:DataRow.Msgsize", "/repo/ripsrc/history3/process/repo/disk/disk_gen.go:Blame.Msgsize", "/repo/ripsrc/history3/process/repo/disk/disk_gen.go:Line.Msgsize", "/repo/ripsrc/history3/process/repo/disk/disk_gen.go:LineData.Msgsize", "/repo/ripsrc/history3/process/repo/disk/disk.go:Data"]}
{"id": "C97", "title": "Calls that return everything at once return exactly what the stream delivers", "statement": "RunSlice and RunMap of commitmeta, and RunGetAll of the log parser and of history3/process, return all the values that Run sends on its channel, in the order sent, nothing else, and the error that Run returns; also when Run fails after sending some. No schedule of their goroutines deadlocks, panics, loses a value or returns before everything was received, and of the goroutines that send or receive these values none is left behind. If Run panics, the call does not return.", "quantifier": "every log text, commit graph, checkpoint and file, every error of Run, every schedule of the goroutines; for history3/process every log that its parser can read", "why_tests_cant": "A test runs under one schedule; a value lost at the end of the stream, or an error read before it was written, shows only under some.", "anchors": ["/repo/ripsrc/commitmeta/commitmeta.go:RunSlice", "/repo/ripsrc/commitmeta/commitmeta.go:RunMap", "/repo/ripsrc/history3/process/parser/parser.go:RunGetAll", "/repo/ripsrc/history3/process/process.go:RunGetAll", "/repo/ripsrc/history3/process/process.go:Run"]}
{"id": "C98", "title": "A call leaves no goroutine behind (commitmeta)", "statement": "When a call of RunSlice or RunMap of commitmeta (and so a call of CodeByCommit, which makes one) has returned and nothing more can happen, none of the goroutines that it started is left; so a process that makes any number of calls does not grow by a goroutine with each of them.", "quantifier": "every log (any number of files and commits in any order), a log that does not start, every schedule of the goroutines, every series of calls in one process", "why_tests_cant": "A goroutine that waits for ever is seen by no assertion on results, and whether a bounded channel can block the parser depends on the number of files between two reads: the statement is about every log and every schedule.", "anchors": ["/repo/ripsrc/commitmeta/commitmeta.go:RunSlice", "/repo/ripsrc/commitmeta/commitmeta.go:RunMap", "/repo/ripsrc/commitmeta/commitmeta.go:Run", "/repo/ripsrc/code.go:CodeByCommit"]}
{"id": "C99", "title": "The statistics of a run count what it processed", "statement": "After a call of Code or CodeByCommit that returned no error, GitProcessTimings tells about exactly the commits delivered by that call, each counted once: the number and the total time of the merges, those of the other commits, and the ten slowest commits with their times. A call that returns an error leaves GitProcessTimings as it was before. CodeInfoTimings counts each file that was looked at (its record is not skipped, or only as a generated file), once, over all the calls on the object. Measuring does not change what is delivered.", "quantifier": "Every log and commit graph, every checkpoint on disk and resume option, every write error, every duration of each step, every stable or unstable descending sort, every previous state of the object's cache and statistics.", "why_tests_cant": "The counts must be right for every history shape (merges in parts, resumed runs, a merge that is the last commit) and for every way a call can end; tests have a handful of repositories and do not look at the statistics.", "anchors": ["/repo/ripsrc/history3/process/process.go:Timing", "/repo/ripsrc/history3/process/process.go:UpdateSlowestCommitsWith", "/repo/ripsrc/history3/process/process.go:processRegularCommit", "/repo/ripsrc/history3/process/process.go:processMergeCommit", "/repo/ripsrc/code.go:CodeByCommit", "/repo/ripsrc/code_info.go:codeInfoFile", "/repo/ripsrc/ripsrc.go:Ripsrc"]}
{"id": "C100", "title": "A patch is applied only to the file it was made for", "statement": "Applying git's patch of one file to blame data whose lines are not the ones the patch was made against is refused, so that a mix-up of files or versions cannot go unnoticed.", "quantifier": "every patch git can print for a changed text file with at least two lines of context, every blame data it is applied to, every commit", "why_tests_cant": "The patches in the tests are always applied to the right file; what happens for every other file is a statement about all pairs of a patch and blame data.", "anchors": ["ripsrc/history3/incblame/apply.go:Apply", "ripsrc/history3/process/process.go:processCommit"]}
{"id": "C101", "title": "The printed statistics tell the truth about the run", "statement": "After a repository has been worked on without an error, the code command prints, for that repository, a report in lines: how many commits that are not merges were delivered and how long they took together, how many merges and how long they took, the ten slowest commits (all of them if there are fewer), slowest first, each with its time, how many they are and their total; then how many files were looked at and how long that took. These are exactly the commits delivered by the call. If the call failed, nothing of this is printed. The printed text determines every one of these values: two different statistics never print alike.", "quantifier": "every history, log, checkpoint, set of options, sequence of durations and state of the object before the call; every way to write a duration that is readable (different for different durations, without spaces and newlines)", "why_tests_cant": "The counts belong to arbitrary histories and to all calls made before; that the text can be read back is a statement about all pairs of statistics.", "anchors": ["ripsrc/history3/process/process.go:Timing.OutputStats", "ripsrc/code_info.go:CodeInfoTimings.OutputStats", "ripsrc/cmd/cmdcode/cmd.go:Run"]}
{"id": "C102", "title": "The lines about memory are up to date, at most one per second, and end with the run", "statement": "While a command works it prints the minutes since its start and the memory in use. Each line shows the memory measured last before it was printed, and whoever prints the line has measured for this line before; the minutes lie between that moment and the printing. There is at most one line per second after the first. Once the run is over and the function returned by StartMemLogs has been called, no further line is printed and nothing is left behind.", "quantifier": "every schedule of the caller and the goroutine, every sequence of measured values, every time at which the ticker fires and they run", "why_tests_cant": "The two read and write one variable at times no test controls; what is printed after the end depends on the schedule.", "anchors": ["ripsrc/cmd/cmdutils/memstats.go:StartMemLogs", "ripsrc/cmd/cmdcode/cmd.go:Run", "ripsrc/cmd/cmdbranches/cmd.go:Run"]}
{"id": "C103", "title": "The line printed for a record can be read back", "statement": "The line that the code command prints for a record determines what it shows: two records whose lines are equal have the same repository, commit (first eight digits), file, language, license text, counts, reason for being skipped, status and author. The same holds for the lines printed for any number of records, one after the other.", "quantifier": "every two records of any commits, files and repositories; every two sequences of records", "why_tests_cant": "It is a statement about all pairs of records: names of files, directories, languages and authors may contain anything, also what looks like the rest of a line.", "anchors": ["ripsrc/cmd/cmdcode/cmd.go:runOnRepo", "ripsrc/commitmeta/commitmeta.go:CommitStatus"]}
{"id": "C104", "title": "The lines printed for branches can be read back", "statement": "What the branches command prints for any number of branches and pull requests determines how many they are and, for each in order, its name, the number of its commits, its first commit, and the first of its commits if it has any.", "quantifier": "every two sequences of branches whose names and ids have no spaces and no newlines (git allows no others)", "why_tests_cant": "It is a statement about all pairs of sequences of branches.", "anchors": ["ripsrc/cmd/cmdbranches/cmd.go:runOnRepo"]}
{"id": "C105", "title": "The identifier of a branch tells branches apart and stays as the branch grows", "statement": "BranchID stays the same while commits are added to the branch and to the default branch and when the branch is merged; two branches of one repository never have the same BranchID; and a branch made under the name of a deleted one has another BranchID.", "quantifier": "all commit graphs, all ways they grow, all branch names, all map iteration orders", "why_tests_cant": "Ranges over pairs of graphs, before and after, and over pairs of branches; tests compare the identifier of one branch of one repository.", "anchors": ["ripsrc/branches2/process.go:branchID", "ripsrc/branches2/process.go:processBranch", "ripsrc/branches2/branch_commits.go:branchCommits", "ripsrc/branches2/branch_commits.go:dedupLinearFromHead"]}
