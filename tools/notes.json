{
 "C01": [
  "proved",
  "For patches with at least two lines of context; the setting-independence is C57."
 ],
 "C02": [
  "proved",
  "Both for git's patches (exact attribution) and, for arbitrary diffs, that no other commit can appear."
 ],
 "C03": [
  "proved",
  "For hunks with distinct old offsets, as git always prints."
 ],
 "C04": [
  "partial",
  "False in general: -N (count 1) and -N,0 are located wrongly, see C04_abbreviated_form_refuted. The proved part covers every header with count >= 2, or at the top of the file."
 ],
 "C05": [
  "proved",
  ""
 ],
 "C06": [
  "partial",
  "Refuted for every quoted name (C06_quoted_names_refuted): the same file gets different names in a change and in a rename, and a quoted name with a space is lost."
 ],
 "C07": [
  "proved",
  "Through parsing of git's own patch text for every parent."
 ],
 "C08": [
  "proved",
  "On an explicit heap with line objects and backing arrays; refinement to the value model used elsewhere is proved too."
 ],
 "C09": [
  "partial",
  "Equivalence relation and characterisation proved; interchangeability is false since Eq ignores IsBinary (C09_interchangeable_refuted)."
 ],
 "C57": [
  "partial",
  "Refuted with one line of context (C57_one_line_of_context_refuted). For any two settings of two or more lines: Parse and Apply of one change printed twice give the same blame (C57_same_blame_partial), and whole runs over the two printed logs of one history end in the same state with the same results (C57_same_run_partial)."
 ],
 "C10": [
  "proved",
  "Including, for every entry, that the delivered diff texts parse to the right names and apply to the right attribution."
 ],
 "C11": [
  "partial",
  "Patch log and graph log: over-long line is an error, no error means nothing was cut. Refuted for the commit metadata log: at any line of 64 KB or more (e.g. a long subject) the reading call returns the commits before it and no error (C11_metadata_log_truncated_refuted); it then closes the pipe, so the goroutine running git panics and the program dies (C11_metadata_log_crash)."
 ],
 "C58": [
  "partial",
  "Refuted, in two ways. Silently wrong: with diff.renames=false the lines of a renamed file belong to the renaming commit instead of their own (C58_every_rename_refuted: for every history of text files and every pure rename in it, both runs succeed and the lines differ; C58_renames_refuted is a concrete pair of logs), and with diff.renames=copies those of a copied file belong to the commits of the original (C58_copies_refuted). The run panics: diff.suppressBlankEmpty, diff.noprefix, log.decorate (the commit is taken for a merge), log.showRoot=false, color.ui=always (every log), log.showSignature=true (every signed commit; both for all contents). Proved for the other presentation settings modelled (context of two or more lines, joining of hunks, hunk headings, length of ids, similarity, author and message lines): the runs over two printings of one history end in the same state with the same results (C58_same_run_partial), and two calls of Code, one on each printing, deliver the same records commit by commit and pass the same checkpoint on, in every schedule (C58_same_records_partial)."
 ],
 "C12": [
  "proved",
  "Any well-formed history printed as git does (%H@%P, newline separated) is recovered exactly."
 ],
 "C13": [
  "proved",
  "Exact inverse with multiplicity, keys, sorted, independent of map iteration order."
 ],
 "C14": [
  "proved",
  "Exact on every finite graph including cyclic ones; the traversal terminates."
 ],
 "C15": [
  "proved",
  "Exact set, no duplicates, head last, ahead count; independent of map iteration order."
 ],
 "C16": [
  "proved",
  "Exact set relative to reachability avoiding the branch head, on acyclic graphs."
 ],
 "C17": [
  "partial",
  "False for heads that are old default-branch commits (C17_old_head_refuted, a code/documentation defect); proved for unmerged heads."
 ],
 "C18": [
  "partial",
  "'FirstCommit has no parent in the branch' is false on a diamond (refuted); proved: FirstCommit = Commits[0], head last, every other commit has a child later, and the full claim for branches without internal merges."
 ],
 "C19": [
  "proved",
  "Exact, sorted, duplicate free, order independent; plus: empty exactly when histories are unrelated (unmerged)."
 ],
 "C20": [
  "partial",
  "False in general (refuted: 3 instead of 2); proved: exact characterisation of what is counted, never too small, exact for linear default history."
 ],
 "C21": [
  "partial",
  "Proved except that a branch at the default head itself is merged with no merge commit (refuted)."
 ],
 "C22": [
  "proved",
  "Exact list, head last; panics iff a reachable commit is missing."
 ],
 "C25": [
  "partial",
  "Returns a common ancestor if there is one and panics iff there is none, on acyclic graphs; 'latest' is refuted."
 ],
 "C26": [
  "proved",
  "For every grouped log, also when processing stops early; and for the text git prints for any valid history. Concurrency of the two goroutines is not part of this (C53/C54)."
 ],
 "C27": [
  "partial",
  "Proved for all valid histories in which no merge changes the type of a file and no path in a merge starts with @@@del@@@; the blame that follows from the history is an independent inductive specification (blame_of). Both restrictions are needed: C27_retyped_refuted, C27_marker_in_name_refuted."
 ],
 "C28": [
  "proved",
  "Reported paths of a commit with at most one parent = paths its patches write or delete; deleted ones have no lines."
 ],
 "C29": [
  "partial",
  "Deletions disappear in non-merge commits, and without renames the stored paths are exactly the commit's files; false for renames and merges (both refuted for every such commit)."
 ],
 "C30": [
  "partial",
  "Proved unless a merge deletes and writes the same path (change of type), for which it is refuted."
 ],
 "C31": [
  "partial",
  "Proved for text files; binary files identical to a parent can be reported (refuted)."
 ],
 "C32": [
  "proved",
  "Parents are always available with correct blame; a commit is dropped only when all its children are processed and 1000 commits finished later."
 ],
 "C33": [
  "partial",
  "Proved within one run; across resumed runs old commits are never dropped (refuted)."
 ],
 "C34": [
  "proved",
  "For every sort that sorts by descending duration."
 ],
 "C35": [
  "proved",
  "Every sound state within the format's limits (strings and line lists below 2^32, fewer than 2^64 objects), every iteration order, through the directory. If no two stored texts collide, everything is restored."
 ],
 "C36": [
  "partial",
  "Refuted: for every 64-bit hash there is a state with two different texts that become equal (no collision handling). Proved: each text read back is a stored text with the hash of the written one, hence equal when no two stored texts collide."
 ],
 "C37": [
  "partial",
  "Refuted: every commit without files is lost in a checkpoint, and no child of it can be processed afterwards."
 ],
 "C38": [
  "partial",
  "Proved for every series of incremental runs over a growing history (any iteration orders, any listed commits): each emitted result equals that of one full run; the next run succeeds when the unlisted parents of the listed commits are stored with at least one file, in particular when resuming at the last processed commit with non-empty parents. Refuted in general: resuming above an empty commit panics. Assumes no hash collision and plain_merge (no type change in merges). Also refuted for a branch that starts at a commit evicted from the checkpoint: after 1000 later finished commits no run that starts from the checkpoint can process a commit on top of it (C38_old_fork_refuted)."
 ],
 "C39": [
  "proved",
  "For every directory, request and log; the error message names both commits, nothing is emitted or written."
 ],
 "C40": [
  "proved",
  "For every prior directory, every crash point, removal order and splitting of writes. Process crash; fsync/power loss reordering is outside the model."
 ],
 "C41": [
  "partial",
  "Refuted: every Write passes a point (after removing the old directory, before renaming) where no checkpoint is readable. Proved: at each point the old one is untouched or the new one is complete on disk (tmp or in place); a later Write works from every such state."
 ],
 "C42": [
  "partial",
  "Refuted for the repo file: cut at any record boundary it is silently read as a smaller repository. Proved: with a complete repo file any truncation of the other three files is detected; and nothing wrong is ever read."
 ],
 "C43": [
  "proved",
  "All four record types, all field values in range; streams; cut records are never taken for records."
 ],
 "C44": [
  "partial",
  "Refuted: the option has no influence on reading and writing checkpoints, for all options, states and logs."
 ],
 "C59": [
  "partial",
  "Proved for a log that is parsed to its end. Refuted if the log parser fails (over-long or malformed line): the commits before are processed, in every schedule the checkpoint of the truncated log is written before the parser panics, and there are schedules in which the call returns nil first."
 ],
 "C45": [
  "partial",
  "Proved for every well-formed log (any number of commits, files, names, subjects, blank lines; renames and copies in git's brace notation; merges). Refuted: files of merges are all reported as modified (also additions); symbolic links and submodules are reported as modified whatever happened; a path starting with a blank is reported twice. A date that cannot be parsed is an error after all earlier commits."
 ],
 "C46": [
  "partial",
  "Proved for all paths without ' => '; refuted for every path containing it (counts go to another name)."
 ],
 "C47": [
  "proved",
  "For every iteration order of the file map and every cache state: one record per path in both maps, right commit/status, removal reason iff removed; result independent of order and cache; succeeds whenever rename targets are in the blame and the license detector does not fail (otherwise the code panics). Joint statement with the two git logs: C60."
 ],
 "C48": [
  "proved",
  "Line counter calls are an arbitrary sequence; WeightedComplexity and timings are not modelled. The author part is conditional on the commit being in the metadata (see C49)."
 ],
 "C49": [
  "partial",
  "Refuted: a line attributed to a commit outside the metadata that was read (every commit before the start of an incremental run) has empty name and email and the zero date (general statement and a concrete two-run history). Proved when all commits of the lines are in the metadata."
 ],
 "C50": [
  "proved",
  "External classifiers (enry, license detector) are arbitrary functions; the exclusion list is the one copied from the code by tools/mkregex.py (Model/GenIgnore.v), whose meaning C74 proves."
 ],
 "C51": [
  "proved",
  "For caches left by any sequence of earlier calls."
 ],
 "C52": [
  "proved",
  ""
 ],
 "C23": [
  "proved",
  "Every schedule of main/feeder/workers/forwarder/caller over unbuffered channels: bounded, no panic, complete, closed exactly at return, nothing left behind; errors returned. For Ripsrc.Branches the number of workers is 2*NumCPU > 0; with a negative branches2 Concurrency it is false (C23_no_workers_refuted). The list of branches is that of C24: C23_all_branches_once goes back to what git prints, for names C24 is proved for."
 ],
 "C53": [
  "proved",
  "Goroutines over unbuffered channels (Model/Net.v, Pipeline.v); every schedule, with step bound (no livelock), no panic, no deadlock, while the caller keeps receiving. A run that fails is C54."
 ],
 "C54": [
  "partial",
  "Proved for every error Process.Run returns, and for errors before the log is read: the records of the earlier commits, then close, then the error, in every schedule. Not so for panics: an error while a merge is processed, a missing parent or a malformed patch panics; then the caller has received a prefix and never sees the channel closed (C54_panic_prefix). C54_worker_panic: the same for a panic of the goroutine that makes the records (no metadata for a commit, a file of a result missing in it): the records before it are delivered, the call never returns, the program crashes."
 ],
 "C60": [
  "partial",
  "Composition of C10, C27, C45, C47-C49 and C53 for histories as in C27 (no type change in a merge, no \"@@@del@@@\" path), unquoted paths without \" => \". Refuted for quoted names (no record) and for files a merge deletes (reported as modified). For merges: each file of the merge that differs from all parents has a record; a file with a record differs from the first parent."
 ],
 "C24": [
  "partial",
  "Proved for branch names that contain no \"@@@\" and do not end in \"@\", and a default branch whose name neither starts nor ends with white space (C24_branch_list_partial); false for the others, which git allows: panic (C24_separator_in_name_refuted); a default branch whose name ends with, say, a no-break space is listed as an ordinary branch and reported under the trimmed name (C24_blank_at_end_refuted: strings.TrimSpace removes all Unicode white space); false for remote branches when git prints origin/HEAD as \"origin\": panic (C24_remote_head_refuted)."
 ],
 "C61": [
  "partial",
  "Proved for a single root; false for several (C61_several_roots_refuted)."
 ],
 "C55": [
  "partial",
  "C55_lines: contents and commits of all lines, exactly, for every well-formed porcelain output; C55_metadata_partial: data of the commit's first occurrence when git prints it once; C55_metadata_refuted: when git repeats only the file name (a commit that wrote under two names) author etc. are lost (the caller does not use them); C55_fallback_blame discharges the assumption slow_blame_right of the history theorems for any git whose blame output is right; C55_git_failure: a git error is a panic."
 ],
 "C56": [
  "partial",
  "C56_found_partial: calls = repositories within the limit and outside working trees, once, in path order; C56_callback_error; C56_nothing_else (unreadable directories). Refuted parts: the search descends into bare repositories (C56_inside_bare_refuted), and a .git file (submodule, linked working tree) is not recognised (C56_git_file_refuted). Missing: links passed as the root, changes of the disk during the search."
 ],
 "C62": [
  "proved",
  "All schedules, all sizes of the pieces written and read, all readers that close after the end of the file. That closing early ends in a panic of the program is part of the property as stated; the code gives no error to the caller."
 ],
 "C63": [
  "proved",
  "Scanner over the pipe, any caller; the two log readers of the package are instances, so the theorems about whole outputs (C10-C16, C45) hold for every execution."
 ],
 "C64": [
  "partial",
  "Proved for trees that can be read and repositories with 40-digit ids or without commits; in unreadable trees only repositories are worked on, none twice, and the error is printed. Refuted for repositories in git's SHA-256 format: they are counted as empty and skipped (C64_sha256_refuted). A panic while working on one repository ends the command: see C90."
 ],
 "C65": [
  "partial",
  "Refuted: the exit status is 1 only if two or more repositories fail; with one failure, no repository, or an unreadable directory it is 0 and the last line says the work is finished (C65_status_zero_refuted). Proved: every failure is printed (C65_printed_partial)."
 ],
 "C66": [
  "partial",
  "loc, sloc, comments, complexity and status are the record's, and the status lookup cannot fail; refuted for blanks, which shows the number of comments (C66_blanks_refuted). The text of the line: C103."
 ],
 "C67": [
  "proved",
  "For every repository and every option; the meaning of git's arguments is in Spec/Selection.v. CommitFromIncl is empty or a name git allows (no '^' or '..')."
 ],
 "C68": [
  "partial",
  "Proved: full runs (C68_full_run) and runs with CommitFromIncl that has a parent (C68_incremental, C68_incremental_without_it, C68_covers_descendants, C68_parents_shown). Refuted: CommitFromIncl without a parent is an error of git, which crashes the program (C68_root_refuted, C62); AllBranches is ignored in incremental runs (C68_other_branches_refuted)."
 ],
 "C69": [
  "partial",
  "Proved while the repository does not change (C69_unchanged_partial). Refuted otherwise: the commit graph is read once per object (C69_changes_ignored_refuted), so a later Code panics on a commit added since (C69_code_refuted), Branches panics if the default branch moved and ignores new pull requests (C69_branches_refuted)."
 ],
 "C70": [
  "partial",
  "Refuted: C70_added_commit_refuted, for every log and schedule: if the patch log has a commit the metadata log did not have, the call never returns nil; either Run returns an error or the program crashes (with the stale graph of the example, or with a good one, C54_worker_panic). While nothing is added the logs agree (C67)."
 ],
 "C71": [
  "proved",
  "For every log, metadata, classifier and schedule, and every caller that reads all records (C71_by_commit); the records are those of Code (C71_same_records, C53). One caller goroutine that reads the commits in order; logs that the worker cannot process are C54. C71_readers: the same for a caller that starts a goroutine for each commit and reads its records there."
 ],
 "C72": [
  "partial",
  "Refuted: a caller of CodeByCommit that leaves a record unread, or stops early, waits for ever, under every schedule (C72_by_commit_refuted, C72_by_commit_gets: exactly what it gets); likewise Code (C72_code_refuted). Proved: it returns if every record is received, even when the caller does not wait for the channels to be closed (C72_code_partial, C71_by_commit)."
 ],
 "C73": [
  "partial",
  "Proved for every log text in which no merge removes and writes one path (C73_same_records_partial). Refuted for the others: a merge that turns a file into a symbolic link is reported with its line in one call and as if deleted in another (C73_retyped_refuted). The external classifiers are functions there; the licence detector is not one if two licences are equally likely (C86)."
 ],
 "C74": [
  "proved",
  "For every path and line; the meaning of expressions is Spec/Regex.v, the texts of the expressions are copied from the code (tools/mkregex.py)."
 ],
 "C75": [
  "partial",
  "Refuted: the last line of custom_patterns.txt (.parquet$) has no newline and genignore drops it, so .parquet files are not excluded (C75_last_line_refuted); an empty pattern file would exclude everything (C75_no_patterns_refuted). Proved: for every file, the generated expression matches what the lines that end in a newline match (C75_generator), and the list in the code is generated so (C75_list_is_generated, C75_listed_partial)."
 ],
 "C76": [
  "partial",
  "Refuted: SUCCESS is printed whenever the command ends, whatever was found (C76_success_refuted, C76_full_refuted), and other commits on lines of at most 10 bytes and blanks around lines are ignored (C76_silent_refuted). Proved: a file is complained about exactly if it has lines and the blames are not similar (C76_complaints_partial), equal blames cause no complaint (C76_no_false_alarm), and the command ends exactly if Run succeeds and git blame works for every file with lines (C76_ends). For several repositories at once: C76_all_repositories_partial."
 ],
 "C77": [
  "partial",
  "C77_code_call_partial: for every usable repository and every git that answers as Spec/GitAnswers.v says (commands with all their arguments are written out there), the call of Code from the first git command to the last record. Missing: what `usable` leaves out, where the property is false (C30, C60: merges that change the type of a file, names git quotes, over-long lines), and runs from a checkpoint (C82)."
 ],
 "C78": [
  "partial",
  "Refuted: no git command is bound to the caller's context, and nothing else looks at it, so cancelling has no effect (C78_cancelling_ends_the_call_refuted). Proved: with a context cancelled before the call everything is delivered as in C77 (C78_context_is_ignored); the model never asks git in the caller's context (C78_no_command_in_the_context)."
 ],
 "C79": [
  "partial",
  "Refuted: every full call leaves two empty files (C79_no_files_left_refuted, C79_two_files_left). Proved: never more than two, none when the repository has no HEAD commit (C79_at_most_two)."
 ],
 "C80": [
  "partial",
  "C80_branches_call_partial: for every usable repository and every git that answers as Spec/BranchAnswers.v says, the call of Branches from the first git command to the last record; C80_without_all_branches. Missing: what `branches_usable` leaves out, where the property is false (C24: names with the separator, a default branch whose name has white space at an end), and what the records lack (C18-C21: several merges, several places of branching off): `branch_right` says for each field what is proved of it."
 ],
 "C81": [
  "partial",
  "Refuted for one command: when the log that reads the graph fails, the program ends (C81_graph_command_refuted). Proved for all others, also when several fail (C81_failed_commands_partial; C23_errors_returned for every error before the workers start)."
 ],
 "C82": [
  "partial",
  "C82_incremental_call_partial: a call of Code with CommitFromIncl (with or without CommitFromMakeNonIncl) that finds a right checkpoint, from the first git command to the last record and the new checkpoint. C82_next_call_partial: what an earlier call left, written to disk and read again, is such a checkpoint. C82_two_calls_partial: a full call that returned without error, and one that continues it; it works if the old parents of new commits are the last commit or its parents, or if the first call was about commits with at most 1000 parents. Missing: what `usable` leaves out (C60), commits with empty trees (lost in checkpoints, C37)."
 ],
 "C83": [
  "partial",
  "C83_never_silent_partial, C83_incremental_never_silent_partial: for every usable repository and every set of failing commands and temporary files, the caller receives the right records of the first commits, and all of them if the call returns without an error. C83_error_returned, C83_no_temporary_file: these failures return an error. Refuted for the three logs: the program ends with a panic (C83_failed_log_refuted), as it does for the blame (part of never_silent). Commands are modelled as failing as a whole; output before the failure is C62."
 ],
 "C84": [
  "partial",
  "For series of any length (C84_next_call_partial, C84_everything_delivered_partial, C84_each_commit_once_partial), by an invariant over the calls: the checkpoint has every commit delivered so far. Missing: what `usable` leaves out (C60), commits with empty trees (C37), calls about commits with more than 1000 parents together, after which old commits are missing in the checkpoint (C33, C38_old_fork_refuted)."
 ],
 "C85": [
  "partial",
  "Proved for full calls (C85_code_by_commit_partial) and for calls that resume a checkpoint (C85_incremental_partial), for every caller that reads everything in one goroutine, and for a caller that starts a goroutine for each commit; the same theorems say that a call whose (one-goroutine) caller leaves anything unread never returns, so 'whatever the caller does' is false. Missing: what `usable` leaves out (C60); the ordinals are 1, 2, ... in the order of git's metadata log, which need not be the order of delivery."
 ],
 "C86": [
  "partial",
  "Proved: a reported licence was found, is likely enough and none is more likely, none is reported exactly if none is likely enough (C86_detect_partial); the result is determined if one licence is more likely than the others (C86_clear_winner_partial); the detector works in the sense the other theorems assume (C86_detector_works). Refuted: any two equally likely licences are reported in turn, depending on the order of a Go map (C86_equally_likely_refuted, C86_determined_refuted), so the information on one file differs from call to call (C86_file_info_refuted). The database itself is a parameter."
 ],
 "C87": [
  "partial",
  "Proved for calls one after the other with crashes at any point, provided the joined arguments and HEAD determine git's answer and their hashes do not collide (C87_output_right_partial). Refuted beyond that: arguments that are the same once joined with '@', or a repository whose other refs changed (C87_same_question_refuted); repositories with names of another length or without commits (C87_other_hash_refuted); the dropped error of gw.Close leaves a file every later call fails on (C87_close_error_refuted); two calls at a time can both fail although git works (C87_two_calls_refuted). The function is exported but nothing in the repository calls it. C87_files_partial: which files a call changes, wherever it is cut off, and what they hold after it. C87_one_after_the_other_partial: on files that are open while written, a call alone and the next one both get the whole output."
 ],
 "C88": [
  "partial",
  "Proved for commits with files whose names git prints as they are, the first not starting and the last not ending with white space (C88_files_partial). Refuted for commits without files (a file with an empty name), quoted names, a first name starting with a space, and failures of git (panic): C88_empty_refuted, C88_quoted_refuted, C88_space_refuted, C88_failure_refuted. The package is exported but nothing in the repository uses it."
 ],
 "C89": [
  "partial",
  "Proved for goroutines that share a logger (C89_whole_lines_partial, C89_all_written) and for what a call writes (C89_one_line, C89_other_arguments). Refuted for two loggers with one writer, as two Ripsrc objects on os.Stdout have (C89_two_loggers_refuted): the line and its newline are two writes and the mutex is per logger."
 ],
 "C90": [
  "partial",
  "Proved for repositories the call of Code can work on (`ready`), with and without --sha, also if the checkpoint cannot be written in some of them (C90_code_command_partial, C90_from_sha_partial). Refuted: if one of git's logs fails in one repository the whole command ends with a panic, nothing is said at the end and later repositories are not worked on (C90_one_failing_repository_refuted); the same with --sha as soon as one repository does not have that commit (C90_sha_elsewhere_refuted). Missing: what `usable` leaves out (C60); the number of blank lines is wrong (C66)."
 ],
 "C91": [
  "partial",
  "Proved for repositories without commits, repositories whose git answers as documented, and repositories in which one of the commands fails (C91_branches_command_partial: `branches_ready`; HEAD must be at a branch, see C80). Refuted for the command that reads the commit graph: if it fails in one repository the whole command ends with a panic (C91_graph_log_refuted). The numbers of the lines are those of the records, whose meaning is that of C80."
 ],
 "C92": [
  "proved",
  "Every recursive closure is modelled a second time with a counter (Model/Cost.v); the theorems say that the counted version returns the same and bound the count. The loop over the parents inside a call and the sorting at the end are not counted; getMergeCommit (one loop over the children of the head) is not either."
 ],
 "C93": [
  "partial",
  "Refuted for every n by a family of histories; the bound is proved for histories without merges (C93_linear_history_partial). Nothing in the module calls LastCommonParent (the call in process.go is commented out)."
 ],
 "C94": [
  "partial",
  "Proved when at most one repository fails, for the kinds other than trace (C94_profile_partial); other values of the flag end the program before anything is done (C94_other_kind: a panic, not a message). Refuted: with two failing repositories os.Exit skips the deferred hook, so that the profile is not completed (C94_complete_refuted); the path said for a trace is not that of its file (C94_trace_refuted; the file names are those of the documentation of github.com/pkg/profile, which is not in the repository)."
 ],
 "C95": [
  "partial",
  "Proved for 1 to 255 characters: the length and the characters, for every outcome, and that every string can come out. Refuted: equal chances (A has 5 cases of 256, Z has 4: C95_equally_likely_refuted); lists whose length is a multiple of 256 (panic) and longer ones (the later characters never come out). Only the repository's tests use the package."
 ],
 "C96": [
  "proved",
  "The msgp library's reader and writer are modelled by the byte formats they use (Model/Msgp.v), not its buffering."
 ],
 "C97": [
  "proved",
  "What happens when the goroutine of the log parser panics is C59. CodeSlice and BranchesSlice collect in the same way from Code and Branches, whose callers receive until the channel is closed in C53 and C23."
 ],
 "C98": [
  "partial",
  "The full property is false of the code: the channel filejobs (commitmeta.go:149) is never closed, so its reader (150-154) waits for ever. C98_goroutine_left_refuted: after every call whose log starts there is one goroutine more, under every schedule; C98_one_per_call_refuted: after any series of calls there are as many as calls whose log started. C98_only_that_partial is what holds: it is the only one left, and in its presence every call ends within a bounded number of steps, however many files the log lists, returns what was sent in order and leaves nothing in the channel."
 ],
 "C99": [
  "proved",
  "Durations are arbitrary integers. The text printed from it: C101."
 ],
 "C100": [
  "partial",
  "The full property is false of the code (C100_other_file_refuted): context and deleted lines of a hunk are not compared with the file. C100_contents_not_compared_refuted shows it for every patch whatsoever: applied to any other file with as many lines it returns as well, copying the lines at the same places. C100_fits_partial says what is checked instead: a file shorter than the last line the patch mentions is refused, any other is patched by place, and its result is determined exactly."
 ],
 "C101": [
  "proved",
  "How time.Duration is written is a parameter; C101_readable assumes that it is readable, C101_report does not. Errors of writing are ignored by the code and not modelled."
 ],
 "C102": [
  "partial",
  "The full property is false of the code: the function returned by StartMemLogs does nothing (the call of ticker.Stop is commented out), so the goroutine goes on for ever and can print any number of lines after the end, whatever has happened before (C102_end_refuted, C102_goes_on). Proved for every execution: each line is up to date (C102_up_to_date_partial; it can show the value that the other one measured), at most one line per second after the first (C102_one_per_second_partial). The race on allocatedMem is modelled as interleaving of whole reads and writes."
 ],
 "C103": [
  "partial",
  "C103_line: the text, from the record. The full property is false of the code (C103_alike_refuted: nothing is quoted, so a file in one repository and another file of another commit in a repository with a suitable name are printed alike). Proved when no part of the line contains what ends it there (C103_line_readable_partial), and for whole outputs if there are no newlines in the parts, either (C103_output_readable_partial). The output is not a terminal (no colours); the text of a license is a parameter."
 ],
 "C104": [
  "proved",
  "C104_line: the text, from the branch; C104_readable. The first word of the line, spaces and the newline are those of fmt.Println."
 ],
 "C105": [
  "partial",
  "Refuted three ways, each witnessed: a fast-forward merge changes the identifier (C105_fast_forward_refuted); a branch made anew under the same name at the same place keeps the identifier of the deleted one, as the code hashes the place of branching off where the comment on the field says the first commit (C105_reuse_refuted); a branch without common history named like another one followed by a commit hash has its identifier (C105_same_id_refuted). Proved: it stays the same however both branches grow and when the branch is merged by a merge commit, as long as the default branch takes commits of the branch only by merging its head and the new commits of the branch take nothing older than a place where it left (C105_stays_partial); different names give different identifiers unless one is the other followed by a commit hash (C105_distinct_partial); under one name the identifiers agree exactly if the first places of branching off do (C105_reuse_partial). The checksum is a parameter without collisions."
 ]
}