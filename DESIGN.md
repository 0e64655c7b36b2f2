# Formal model of pinpt/ripsrc in Rocq (Coq 8.16.1)

## 1. Layout

* `rocq/theories/Model/*.v`  executable Gallina model of the Go code. Definitions only; every definition cites
  the file and lines in /repo that it models and the simplifications made.
* `rocq/theories/Spec/*.v`   small, independent specifications: what a diff *is*, what reachability *is*, how git
  prints a log, and so on. They never mention the helpers of the model.
* `rocq/theories/Proofs/*.v` lemmas.
* `rocq/theories/Props/*.v`  one file per area holding only the property theorems (`exact some_lemma`),
  `Print Assumptions`, and non-vacuity examples.

## 2. Modelling conventions

* Bytes are `ascii`; Go `string` and `[]byte` are `list ascii` (type `bytes`). Aliasing of slices/pointers is only
  modelled where a property is about it (checkpoint writer: explicit heap of blame and line objects).
* Go `error` returns are `Err`, panics and runtime errors are `Panic`, both explicit in the type `outcome`.
* Go maps are std++ `gmap`s; the unspecified iteration order of `range m` is an explicit list parameter that is
  only assumed to be a permutation of the map's entries, and theorems quantify over it.
* Ints are unbounded `Z`/`nat` (no property is about overflow, except the msgpack codec, where ranges are explicit).
* External programs and libraries (git, xxhash, enry, licence detector, scc, the clock, date parsing, gzip, the OS)
  are function parameters; what is assumed about them is a visible hypothesis of the theorem.
* Goroutines and channels are small-step state machines; theorems quantify over all interleavings.

## 3. Plan per property

| id | modelled | proof |
|----|----------|-------|
| C01,C02 | bufio.ScanLines, incblame.Parse, parseContext, parseDiffDecl, Apply on bytes; independent renderer of git's unified diff from a list of edit blocks | render → parse → apply round trip by induction over hunks and lines |
| C03 | Apply with the hunk sort | result invariant under permutation of hunks with distinct offsets |
| C04 | parseContext | proved for `-a,n` and start 1; refuted for `-N` with N>1 (offset lost) |
| C05,C06 | parseDiffDecl, rename/new/deleted meta lines | round trip for unquoted names; refuted for quoted ones, with witness |
| C07 | ApplyMerge | per-line characterisation |
| C08 | aliasing of line pointers: Apply over a heap of line objects | heap of old objects unchanged |
| C09 | Blame.Eq | equivalence + characterisation; "interchangeable" refuted (IsBinary ignored) |
| C10,C11 | history3/process/parser | renderer of `git log -p -m` round trip; scanner error analysis; commitmeta refuted for C11 |
| C12,C13 | parentsgraph, gitexec prepared log parsing | round trip; counting argument |
| C14–C22 | branches2 (DFS with done map) | reachability closure of DFS by generalised invariants; refutations of C17, C18, C20, C21 by witness, with exact partial characterisations |
| C23 | branches2 worker pool as a transition system | invariant over all interleavings, progress and termination measure |
| C24 | branchmeta | round trip; refuted for names with `@@@` and for a default branch with white space at an end of its name |
| C25 | LastCommonParent BFS | soundness; "latest" refuted |
| C26–C31 | process.Run/processCommit/processRegularCommit/processGotMergeParts | refinement to an abstract history of trees |
| C32,C33 | trimGraph + Unloader | invariant over all event sequences |
| C34 | process.Timing | sortedness/permutation invariant |
| C35–C37 | checkpoint writer/reader over an explicit heap | round trip up to renaming of pointers |
| C38,C39 | resume | equivalence of runs on bisimilar states |
| C40–C42 | file system steps of the writer and of the reader, with crash points | invariant over all prefixes of the write sequence |
| C43 | disk_gen.go encoders/decoders on msgpack bytes | round trip with remainder |
| C44 | process.Run checkpoint options | refuted by witness |
| C45,C46 | commitmeta parser | renderer round trip |
| C47–C52 | code_info.go, fileinfo | direct functional characterisations |
| C53,C54 | pipelines of ripsrc.Code / process.Run | transition system, prefix invariant, progress |
| C55 | gitblame2.parseOutput, Run, process.slowGitBlame | renderer round trip; refutation for repeated file names |
| C56 | gitrepos.IterDir | induction on directory trees; trace of calls, then any callback |
| C57,C58 | hunk location under other git settings; whole runs over two printings of one history (Spec/Presentation.v) | witnesses; for two or more lines of context, by a lockstep of the two runs with one common iteration order (the order being irrelevant by C30): patches with the same script have the same effect, so states, results and merges agree |
| C59 | Process.Run writing a checkpoint, with the parser goroutine | invariant over all schedules; refuted when the parser fails |
| C60 | composition of log parsing, processing, metadata, records and the pipeline | composition theorem over all schedules |
| C61 | branches2.getFirstCommit | direct; refuted for several roots |
| C62,C63 | gitexec.ExecPiped, bufio.Scanner | transition system of pipe and reader, invariant over all schedules and chunkings; scanner invariant; instances for both log readers |
| C64-C66 | cmd/cmdcode, cmd/cmdbranches, cmd/cmdutils | fold over the calls of IterDir; C65 and C66 refuted |
| C67-C68 | the arguments of the git logs; meaning of revisions in Spec/Selection.v | shapes of the arguments and reachability; C68 refuted for root commits and AllBranches |
| C69 | the state an object keeps between calls (Model/Session.v) | fold over the calls; refuted for repositories that change: the graph is read once |
| C70 | Pipeline.v, with metadata and graph older than the patch log | confluence of the network, invariant after the panic of the worker; refuted |
| C71 | CodeByCommit with a caller that reads every channel (Model/Callers.v) | one complete run is built by induction over the commits, confluence of the network gives all schedules |
| C72 | callers that stop early or leave records unread (Model/Callers.v) | the run up to the blocked state, confluence: no schedule gets further; refuted |
| C73 | Pipeline.v with two environments that differ in iteration orders | merge_order (C30) and order_irrelevant (C47) lifted through Run and Code; refuted for changes of type in merges |
| C74 | FileInfo.v, CodeInfo.v against the texts of the expressions (Model/GenIgnore.v, copied by tools/mkregex.py) and a reader and matcher for expressions (Spec/Regex.v) | expressions without repetition are flattened into anchored texts (proved), the two lists are compared by computation; the licence expression by the texts it matches |
| C75 | genignore.go (GenIgnore.v), custom_patterns.txt | the reader of expressions is compositional (induction on its depth), so the generated alternatives match what each pattern matches; refuted for the unterminated last line |
| C76 | cmd/validate.go (Validate.v) over the results of Run and the answers of git blame (GitBlame.v) | induction over the lines, then over files and commits; similarity of blames stated apart in Spec/Validation.v; success refuted by a witness |
| C77 | the call of Code (Api.v): arguments of every git command, parsing of each answer, then the goroutines of Pipeline.v | composition of C12, C14, C37, C55, C60, C68; the history is first cut down to the selected commits (`cut`), with transfer lemmas |
| C78 | which context each git command is bound to (Api.v) | C77 for a git that fails in the caller's context; refutation by a concrete repository |
| C79 | the temporary files made by the two logs (Api.v) | case analysis over the preparation; refutation by a concrete repository |
| C80 | Branches with its git commands (BranchesApi.v), the goroutines of BranchPool.v | the answers of git are read back to a part of the repository's graph closed under parents; C16-C24 on that part, transported to the whole graph |
| C81 | the same with a git that may fail | case analysis over the failing command; before the workers start, the schedule does not depend on their work (simulation) |
| C82 | Code with CommitFromIncl (Api.v), the checkpoint on disk between two calls (CheckpointFS.v) | the proof of C77 for any right initial state whose commits are not read again; what a call leaves (`leaves_checkpoint`, Spec/Continuing.v) is written, read back (C36, C40) and stays right when the history grows |
| C83 | the same calls with a git that may fail | the run with a failing blame emits a part of what the other emits and then panics (simulation over the log); records of a part of the results are a part of the records; C53/C54 for each end |
| C84 | series of calls (Spec/Series.v, an inductive predicate over C77's and C82's calls) | invariant by induction over the series: the delivered commits are closed under parents, contain HEAD's ancestors, and are all in the last checkpoint |
| C85 | CodeByCommit with the commands it runs (Model/ApiByCommit.v): the setup of Model/Api.v with the goroutines and callers of Model/Callers.v | composition of the run of C77/C82 with the schedules of C71/C72 and the metadata of C45 |
| C86 | detect of license_enabled.go with the Go map, its order, and an unstable sort as parameters (Model/License.v) | case analysis with the contract of sort.Slice; orders that swap two equally likely licences as witnesses; insertion sort shown to meet the contract |
| C87 | Model/GitCache.v: cache keys, the file operations of a call with crash points, and two calls as steps on a disk with open files | invariant over the series of calls: every file of the cache is the complete compressed output of a call with its key; concrete schedule for two calls |
| C88 | Model/BlameCommit.v: the list printed by git, trimmed and split | trimming and splitting the lines joined by newlines; witnesses for the refutations |
| C89 | Model/Logger.v: the lines of a call; goroutines as steps lock, write, write newline, unlock with a lock per logger | invariant over all reachable states: output = whole lines of an interleaving of the written parts, plus at most the line of the lock holder |
| C90 | The command's loop over repositories with CodeByCommit inside (Model/CodeCommand.v, on Commands.v and ApiByCommit.v); what is printed is a list of lines with their fields | every schedule of C85 ends with the same commits in the loop's hands, so that each repository has exactly one end; then the loop over repositories of C64 |
| C91 | The command's loop over repositories with Branches inside (Model/BranchesCommand.v, on Commands.v, CodeCommand.v and BranchesApi.v) | the final states of C80/C81 (which exist, as every net of bounded runs has one: Proofs/NetFinal.v) give the ends of the work on a repository; then the loop over repositories as in C90 |
| C92 | The closures of branches2 with a counter (Model/Cost.v) | what a walk adds to the marked commits has no duplicates, and its calls are one per link of an added commit; induction on fuel |
| C93 | The search of HistoryGraph.v with a counter (Model/Cost.v) | induction on the merges: the list of traces doubles every second level; without merges each level is at most as long as the one before |
| C94 | EnableProfiling and the deferred hook around the command (Model/Profile.v, on Commands.v) | cases on the number of failures |
| C95 | random.go with the bytes of crypto/rand as parameter (Model/Random.v) | induction on the bytes; counting the 256 cases |
| C96 | MsgpData: enc_data, dec_data, read_slice, marshal, size_data | every field decodes to itself whatever it is decoded into; induction on elements and on fields; sizes field by field |
| C97 | GetAll: c_act (two goroutines), r_act (Process.RunGetAll: three, with the states of Pipeline) | each channel has one sender and one receiver, so all schedules agree (NetProofs); one schedule is followed to its end |
| C98 | MetaRun: mstep (caller, collector, elements in filejobs, waiting readers) | invariant over the steps; a measure that every step makes smaller; induction over the series of calls |
| C99 | Stats: process_log_t, all_files_t, shown_after | invariant over the log; induction over results and files |
| C100 | Model/IncBlame.v | naturality of Apply in the type of lines (C100_contents_not_compared_refuted); the index after the hunks is the number of lines the patch mentions (FitProofs.v) |
| C101 | Model/StatsText.v (OutputStats of both kinds, cmd.go:131-143) on Model/Stats.v; Spec/StatsReport.v | C99_after_call; lines of the text read back (raw_lines_unlines), numerals and durations are injective |
| C102 | Model/MemLogs.v (transition system; every schedule is a list of actions) | invariant over the execution: who is about to print has measured since its last line; lines <= ticks received + 1; from every reachable state the goroutine can print again |
| C103 | Model/RecordLine.v (cmd.go:114-119) on Model/CodeCommand.v; Spec/LineReading.v | a separator without repeated first character ends a text uniquely (sep_inj), piece by piece; numerals and statuses are injective |
| C104 | Model/BranchLine.v (cmd.go:109-115) on Model/BranchesCommand.v; Spec/BranchReading.v | lines and words are split back (raw_lines_unlines, split_char_join); numerals are injective |
| C105 | process.go:232-282 (branchID, processBranch), branch_commits.go (Branches.v) | branching points before and after are the same set: an old point remains one, and every new one has an old one among its ancestors (BranchIdProofs.v); sorted lists with the same elements are equal; texts ending in hashes of one length split uniquely |

## 4. Modelled / not modelled

| model file | code of /repo |
|------------|---------------|
| GoStrings, GoSort | strings.Split/SplitN/TrimSpace (all of unicode.IsSpace, on UTF-8 bytes)/HasPrefix..., strconv.Atoi, bufio.Scanner with a buffer limit, sort.Strings |
| IncBlame | ripsrc/history3/incblame: parse.go, parse_utils.go, apply.go, apply_merge2.go |
| IncBlameHeap | the same Apply on a heap of line objects and backing arrays (aliasing) |
| LogParser | ripsrc/history3/process/parser |
| ParentsGraph | ripsrc/parentsgraph, parentsp |
| Branches | ripsrc/branches2: process.go, branch_commits.go, behind_branch.go, merge_commit.go |
| GetAll | RunSlice, RunMap, RunGetAll of commitmeta, parser and process |
| MetaRun | RunSlice, RunMap and Run of commitmeta with the channel filejobs and its reader |
| Stats | GitProcessTimings, CodeInfoTimings: what a run measures (durations are arbitrary), what an object shows after a call |
| StatsText | OutputStats of both, as cmdcode prints it after a call (how a duration is written is a parameter) |
| MemLogs | StartMemLogs: its goroutine, the ticker, the lines it prints |
| RecordLine | the text of the line printed for a record (cmdcode/cmd.go:114-119) |
| BranchLine | the text of the line printed for a branch (cmdbranches/cmd.go:109-115) |
| BranchMeta | ripsrc/branchmeta, branches2.getFirstCommit, getNamesAndHashes |
| BranchPool | ripsrc/branches.go, branches2 Run with its worker pool, name_hash.go Chan |
| HistoryGraph | ripsrc/history3/process/graph, trimGraph |
| Cost | the recursive closures of branches2 and LastCommonParent again, with a counter of calls |
| Process | ripsrc/history3/process/process.go: Run, processCommit, regular commits, merges, results |
| Timing | process.Timing |
| Msgp | repo/disk/disk_gen.go encoders and decoders (the parts of msgp they call) |
| MsgpData | disk_gen.go: Data as one message, MarshalMsg, Msgsize of all types |
| Checkpoint, CheckpointFS | repo/writer.go, reader.go, msgp.go, repo.go; the file system calls with crash points; process checkpoints and strict resume |
| CommitMeta | ripsrc/commitmeta |
| FileInfo, CodeInfo | ripsrc/fileinfo, ripsrc/code_info.go |
| License | fileinfo/license_enabled.go:34-67, license_disabled.go (without licensedb) |
| ApiByCommit | code.go:93-192 from the answers of git |
| CodeCommand | ripsrc/cmd/cmdcode/cmd.go:44-150 with CodeByCommit (without colours, times and progress messages) |
| BranchesCommand | ripsrc/cmd/cmdbranches/cmd.go:40-132 with Branches (as CodeCommand) |
| GitCache | gitexec/gitexec.go:18-123 (opening, creating and renaming files works) |
| BlameCommit | history3/process/gitblamecommit/gitblamecommit.go:12-52 |
| Logger | pkg/logger/logger.go |
| GenIgnore | genignore.go (without the walk over files it does not use), custom_patterns.txt, and the texts of the expressions of gitignore.go, license.go, code_info.go |
| Validate | cmd/validate.go:36-128 (without the texts printed) |
| Api | code.go:93-181, gitexec/gitexec.go:112-160, gitexec/prepare.go:16-40, ripsrc.go:85-104, commit_info.go:9-22, the argument lists in parentsgraph/parents.go:86-97, commitmeta/commitmeta.go:175-215, process.go:796-844, gitblame2/gitblame.go:31-38 |
| BranchesApi | branches.go:13-28, branches2/process.go:105-151, the argument lists in branchmeta/branchmeta.go:35-44,96-100, branchmeta/default.go:30,42, branches2/process.go:106 |
| Net, Pipeline | Go channels and goroutines; Code, CodeByCommit, Process.Run, the parser goroutine |
| Callers | code.go:63-192 with callers that read as much as they want (CodeByCommit as entry point; Code with a caller that stops) |
| GitBlame | ripsrc/gitblame2, process.slowGitBlame |
| GitRepos | ripsrc/pkg/gitrepos |
| GitPipe | ripsrc/gitexec/gitexec.go (ExecPiped, ExecIntoWriter) with io.Pipe, and bufio.Scanner as reader |
| LogArgs | ripsrc.go:92-104, code.go:109-139, 171-181, commit_info.go:9-16 (options passed to the logs) |
| Session | ripsrc.go:58-104 (what an object keeps between calls) |
| Commands | ripsrc/cmd/cmdcode, cmdbranches, cmdutils (errors.go, repo_run.go); texts of progress messages left out |
| Profile | ripsrc/cmd/cmdutils/profile.go and its use in the two commands (pkg/profile itself: the names of its files, from its documentation) |
| Random | ripsrc/pkg/random |

Not modelled: ripsrc/pkg/testutil, tests, time measurement other than Timing. Parameters (not
modelled inside): git itself, xxhash, gzip, enry, the licence detector, scc, time parsing, formatting of log messages. Cancellation of the context: a git command bound to a cancelled context fails (Api.v); the moment of cancelling is not modelled, as no command is bound to the context.
Integers are unbounded. Memory limits and disk-full conditions are errors of the corresponding call at most.

## 5. Trusted base

* Coq 8.16.1 kernel (and `coqchk`).
* `Print Assumptions` follows every property theorem in Props/ and prints "Closed under the global context" for each of them: no
  axioms at all. `coqchk -o` lists only `Coq.ssr.ssrunder.Under_rel.*`, which are module-type parameters of Coq's own ssreflect
  library loaded by std++.
* The reading of the Go code into Gallina: each definition cites its source and names its simplifications.
* The specifications of what git prints (Spec/UnifiedDiff, GitLog, MetaLog, CommitGraph, Refs, Porcelain) are written from git's
  documentation and the repository's test data; nothing was run.
* Libraries: Coq's standard library and std++ (no axioms used from either).

## 6. Findings

Defects that came up while proving; those marked with a theorem are machine checked.

Blame and diffs
* A hunk header without a count (`@@ -5 +5 @@`) or with count 0 is located at the top of the file (C04_abbreviated_form_refuted); harmless with
  two or more lines of context, wrong with diff.context=1 (C57).
* Quoted names (spaces with quotes, non-ASCII) are treated differently per kind of change (C06) and get no record (C60_quoted_name_refuted).
* Apply never compares context or deleted lines with the file: a patch applied to any other file with enough lines succeeds and misattributes
  lines silently (C100_contents_not_compared_refuted).
* Blame.Eq ignores IsBinary (C09_interchangeable_refuted).
* chmod of a binary file makes it a text blame; binary files in merges are reported even if identical to one parent (C31).
* git settings: diff.renames=false and diff.renames=copies change the attribution of lines without any message (C58_renames_refuted, C58_copies_refuted);
  log.showRoot=false, log.showSignature, color.ui=always and others end the run with a panic (C58_no_root_patch_refuted, C58_signature_refuted, C58_color_refuted).

Files
* Two equally likely licences (common in the database, e.g. the -only and -or-later variants) are reported in turn, by map order (C86).

Commit metadata
* A line of 64 KB or more ends the metadata log: the call returns the commits before it with no error
  (C11_metadata_log_truncated_refuted), and the program then dies with a panic in the goroutine that runs git (C11_metadata_log_crash).
* Files of merges are always "modified", so are symbolic links and submodules; a path with a leading blank is reported twice (C45);
  paths containing " => " lose their counts (C46). A file a merge deletes is reported as modified without lines (C60_merge_deletion_refuted);
  the old name of a rename gets no removal record; a rename target missing in the blame is a panic.

Processing and checkpoints
* Renamed-away paths and paths deleted by a merge stay in the tracked state (C29); they never affect reported results.
* A change of type (file to symbolic link) in a merge gives results that depend on map iteration order (C30).
* Commits without files are lost in the checkpoint, resuming above one panics (C37, C38); the checkpoint grows with every incremental
  run (C33). Merging a branch that starts 1000 finished commits back makes every later incremental run die with "commit not found": the
  parent was evicted and is not listed (C38_old_fork_refuted).
* 64-bit content hashes have no collision handling (C36). A cut "repo" file is silently read as a smaller repository (C42).
* Between removing the old and renaming the new checkpoint none is readable (C41); nothing is fsynced.
* CommitFromMakeNonIncl does not skip checkpoints although documented (C44).
* initCheckpoints wraps ErrCheckpointNotExpected with %v, so callers cannot test for it.
* When the log parser fails (line over 100 MB, malformed line) a checkpoint of the truncated log is written first, and Run may even
  return nil before the crash (C59). A failing git panics in its own goroutine.
* In incremental runs lines of commits before the start have no author (C49_incremental_refuted).
* CommitFromIncl given as a root commit is `root^..HEAD` for git: git fails and the program crashes (C68_root_refuted). Incremental runs
  ignore AllBranches (C68_other_branches_refuted).
* The commit graph is read once per object: after commits are added a second Code on the object panics with "index out of range",
  Branches panics if the default branch moved, new pull requests are silently skipped (C69). A commit that arrives between two of
  the logs of one call crashes the program (C70).
* A caller that stops reading, or ignores the records of a commit, blocks the call for ever and leaks its goroutines (C72).

Branches
* LastCommonParent takes exponential time on histories with merges (C93_polynomial_refuted).
* Behind counts, FirstCommit, "latest" common parent, merge commit at the default head: C17, C18, C20, C21, C25.
* A default branch whose name ends with white space outside ASCII is reported under a shorter name and listed twice (C24). Names containing "@@@" or ending in "@" and remotes whose origin/HEAD git prints as "origin" panic (C24); FirstCommit of the default
  branch is several ids joined by newlines when there are several roots (C61).
* A negative Concurrency gives no records and leaves a goroutine behind (C23_no_workers_refuted).

Other
* git blame's metadata of a commit is overwritten when git repeats only its file name (C55). The directory search enters bare
  repositories and does not know ".git" files (C56).
* The commands exit with status 0 and print "Finished" when the only repository fails, when there is none and when the directory cannot be
  read; only two failing repositories give status 1 (C65), and then a --profile is lost (C94). Repositories in SHA-256 format are skipped as empty (C64). The number printed as
  blanks is the number of comments (C66).
* validate_inc_blame prints SUCCESS even after complaints, and does not report other commits on lines of at most 10 bytes (C76).
* The context passed to Code reaches no git command, cancelling it has no effect (C78).
* `ripsrc code` on many repositories: one whose git log fails, or with --sha one that lacks that commit, ends the whole command with a panic; later
  repositories are not worked on (C90); the same for `ripsrc branches` if the log that reads the commit graph fails (C91).
* BranchID: a fast-forward merge changes it; a branch made anew under the same name at the same place keeps the old one's (the code hashes the
  place of branching off, the comment says the first commit) (C105).
* Each call of Code leaves two temporary files behind (C79).
* Two Ripsrc objects that log to the same writer mix their lines (C89).
* ExecWithCache (unused) returns old output when refs other than HEAD changed, for arguments joined alike and in SHA-256 repositories; a dropped
  write error or two calls at a time give unreadable files (C87).
* When the log that reads the commit graph fails during Branches, or one of the three logs or a blame during Code, the program ends instead of
  returning an error (C81, C83).
* custom_patterns.txt ends without a newline and genignore.go drops an unterminated last line: .parquet files are not excluded (C75). The
  pattern for .pdf files is `\.[P]pdf$`, which matches only names in ".Ppdf"; LICENSE, README, DCO, VERSION, ... match anywhere in a path, so that
  for example src/DCOM.cs is excluded (C74_hypotheses_hold).
