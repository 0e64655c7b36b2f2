{
 "claims": [
  {
   "property": "C01",
   "status": "proved",
   "theorems": [
    "C01_apply_reproduces_new_file"
   ],
   "note": "For patches with at least two lines of context; the setting-independence is C57."
  },
  {
   "property": "C02",
   "status": "proved",
   "theorems": [
    "C02_attribution",
    "C02_no_other_commit"
   ],
   "note": "Both for git's patches (exact attribution) and, for arbitrary diffs, that no other commit can appear."
  },
  {
   "property": "C03",
   "status": "proved",
   "theorems": [
    "C03_hunk_order_irrelevant",
    "C03_any_sort_result"
   ],
   "note": "For hunks with distinct old offsets, as git always prints."
  },
  {
   "property": "C04",
   "status": "partial",
   "theorems": [
    "C04_hunk_located_partial",
    "C04_abbreviated_form_refuted"
   ],
   "note": "False in general: -N (count 1) and -N,0 are located wrongly, see C04_abbreviated_form_refuted. The proved part covers every header with count >= 2, or at the top of the file."
  },
  {
   "property": "C05",
   "status": "proved",
   "theorems": [
    "C05_unquoted_names"
   ],
   "note": ""
  },
  {
   "property": "C06",
   "status": "partial",
   "theorems": [
    "C06_quoted_names_refuted"
   ],
   "note": "Refuted for every quoted name (C06_quoted_names_refuted): the same file gets different names in a change and in a rename, and a quoted name with a space is lost."
  },
  {
   "property": "C07",
   "status": "proved",
   "theorems": [
    "C07_merge_attribution"
   ],
   "note": "Through parsing of git's own patch text for every parent."
  },
  {
   "property": "C08",
   "status": "proved",
   "theorems": [
    "C08_apply_preserves_heap",
    "C08_apply_merge_preserves_heap",
    "C08_any_history",
    "C08_heap_apply_refines",
    "C08_heap_apply_merge_refines"
   ],
   "note": "On an explicit heap with line objects and backing arrays; refinement to the value model used elsewhere is proved too."
  },
  {
   "property": "C09",
   "status": "partial",
   "theorems": [
    "C09_eq_characterised",
    "C09_eq_equivalence",
    "C09_interchangeable_refuted"
   ],
   "note": "Equivalence relation and characterisation proved; interchangeability is false since Eq ignores IsBinary (C09_interchangeable_refuted)."
  },
  {
   "property": "C10",
   "status": "proved",
   "theorems": [
    "C10_log_recovered",
    "C10_changes_usable"
   ],
   "note": "Including, for every entry, that the delivered diff texts parse to the right names and apply to the right attribution."
  },
  {
   "property": "C11",
   "status": "partial",
   "theorems": [
    "C11_graph_long_line_is_error",
    "C11_graph_never_truncated",
    "C11_patch_log_never_truncated",
    "C11_patch_log_long_line_is_error",
    "C11_metadata_log_truncated_refuted",
    "C11_metadata_log_crash"
   ],
   "note": "Patch log and graph log: over-long line is an error, no error means nothing was cut. Refuted for the commit metadata log: at any line of 64 KB or more (e.g. a long subject) the reading call returns the commits before it and no error (C11_metadata_log_truncated_refuted); it then closes the pipe, so the goroutine running git panics and the program dies (C11_metadata_log_crash)."
  },
  {
   "property": "C12",
   "status": "proved",
   "theorems": [
    "C12_parents_recovered"
   ],
   "note": "Any well-formed history printed as git does (%H@%P, newline separated) is recovered exactly."
  },
  {
   "property": "C13",
   "status": "proved",
   "theorems": [
    "C13_children_inverse",
    "C13_iteration_order_irrelevant"
   ],
   "note": "Exact inverse with multiplicity, keys, sorted, independent of map iteration order."
  },
  {
   "property": "C14",
   "status": "proved",
   "theorems": [
    "C14_reachability_exact"
   ],
   "note": "Exact on every finite graph including cyclic ones; the traversal terminates."
  },
  {
   "property": "C15",
   "status": "proved",
   "theorems": [
    "C15_unmerged_commits",
    "C15_iteration_order_irrelevant"
   ],
   "note": "Exact set, no duplicates, head last, ahead count; independent of map iteration order."
  },
  {
   "property": "C16",
   "status": "proved",
   "theorems": [
    "C16_merged_commits"
   ],
   "note": "Exact set relative to reachability avoiding the branch head, on acyclic graphs."
  },
  {
   "property": "C17",
   "status": "partial",
   "theorems": [
    "C17_old_head_refuted",
    "C17_unmerged_partial"
   ],
   "note": "False for heads that are old default-branch commits (C17_old_head_refuted, a code/documentation defect); proved for unmerged heads."
  },
  {
   "property": "C18",
   "status": "partial",
   "theorems": [
    "C18_first_commit_refuted",
    "C18_first_commit_partial"
   ],
   "note": "'FirstCommit has no parent in the branch' is false on a diamond (refuted); proved: FirstCommit = Commits[0], head last, every other commit has a child later, and the full claim for branches without internal merges."
  },
  {
   "property": "C19",
   "status": "proved",
   "theorems": [
    "C19_branch_points",
    "C19_no_branch_point_iff_unrelated"
   ],
   "note": "Exact, sorted, duplicate free, order independent; plus: empty exactly when histories are unrelated (unmerged)."
  },
  {
   "property": "C20",
   "status": "partial",
   "theorems": [
    "C20_behind_count_refuted",
    "C20_behind_count_partial"
   ],
   "note": "False in general (refuted: 3 instead of 2); proved: exact characterisation of what is counted, never too small, exact for linear default history."
  },
  {
   "property": "C21",
   "status": "partial",
   "theorems": [
    "C21_merge_commit",
    "C21_default_head_refuted"
   ],
   "note": "Proved except that a branch at the default head itself is merged with no merge commit (refuted)."
  },
  {
   "property": "C22",
   "status": "proved",
   "theorems": [
    "C22_default_branch_commits",
    "C22_panics_iff_commit_missing"
   ],
   "note": "Exact list, head last; panics iff a reachable commit is missing."
  },
  {
   "property": "C23",
   "status": "proved",
   "theorems": [
    "C23_every_schedule",
    "C23_errors_returned",
    "C23_every_branch_once",
    "C23_all_branches_once",
    "C23_no_workers_refuted",
    "C23_unknown_pull_request_skipped"
   ],
   "note": "Every schedule of main/feeder/workers/forwarder/caller over unbuffered channels: bounded, no panic, complete, closed exactly at return, nothing left behind; errors returned. For Ripsrc.Branches the number of workers is 2*NumCPU > 0; with a negative branches2 Concurrency it is false (C23_no_workers_refuted). The list of branches is that of C24: C23_all_branches_once goes back to what git prints, for names C24 is proved for."
  },
  {
   "property": "C24",
   "status": "partial",
   "theorems": [
    "C24_branch_list_partial",
    "C24_separator_in_name_refuted",
    "C24_blank_at_end_refuted",
    "C24_remote_head_refuted",
    "C24_default_branch",
    "C24_detached_head"
   ],
   "note": "Proved for branch names that contain no \"@@@\" and do not end in \"@\", and a default branch whose name neither starts nor ends with white space (C24_branch_list_partial); false for the others, which git allows: panic (C24_separator_in_name_refuted); a default branch whose name ends with, say, a no-break space is listed as an ordinary branch and reported under the trimmed name (C24_blank_at_end_refuted: strings.TrimSpace removes all Unicode white space); false for remote branches when git prints origin/HEAD as \"origin\": panic (C24_remote_head_refuted)."
  },
  {
   "property": "C25",
   "status": "partial",
   "theorems": [
    "C25_common_ancestor",
    "C25_latest_refuted"
   ],
   "note": "Returns a common ancestor if there is one and panics iff there is none, on acyclic graphs; 'latest' is refuted."
  },
  {
   "property": "C26",
   "status": "proved",
   "theorems": [
    "C26_one_result_per_commit",
    "C26_git_log"
   ],
   "note": "For every grouped log, also when processing stops early; and for the text git prints for any valid history. Concurrency of the two goroutines is not part of this (C53/C54)."
  },
  {
   "property": "C27",
   "status": "partial",
   "theorems": [
    "C27_results_right_partial",
    "C27_blame_is_the_file",
    "C27_text_is_never_binary",
    "C27_state_right_partial",
    "C27_retyped_refuted",
    "C27_marker_in_name_refuted"
   ],
   "note": "Proved for all valid histories in which no merge changes the type of a file and no path in a merge starts with @@@del@@@; the blame that follows from the history is an independent inductive specification (blame_of). Both restrictions are needed: C27_retyped_refuted, C27_marker_in_name_refuted."
  },
  {
   "property": "C28",
   "status": "proved",
   "theorems": [
    "C28_reported_files"
   ],
   "note": "Reported paths of a commit with at most one parent = paths its patches write or delete; deleted ones have no lines."
  },
  {
   "property": "C29",
   "status": "partial",
   "theorems": [
    "C29_deleted_disappears_partial",
    "C29_exact_without_renames_partial",
    "C29_rename_keeps_old_path_refuted",
    "C29_merge_deletion_keeps_path_refuted"
   ],
   "note": "Deletions disappear in non-merge commits, and without renames the stored paths are exactly the commit's files; false for renames and merges (both refuted for every such commit)."
  },
  {
   "property": "C30",
   "status": "partial",
   "theorems": [
    "C30_order_irrelevant_partial",
    "C30_runs_same_partial",
    "C30_retyped_refuted"
   ],
   "note": "Proved unless a merge deletes and writes the same path (change of type), for which it is refuted."
  },
  {
   "property": "C31",
   "status": "partial",
   "theorems": [
    "C31_reported_partial",
    "C31_keeps_parents_blame",
    "C31_binary_refuted"
   ],
   "note": "Proved for text files; binary files identical to a parent can be reported (refuted)."
  },
  {
   "property": "C32",
   "status": "proved",
   "theorems": [
    "C32_parents_available",
    "C32_dropped_late"
   ],
   "note": "Parents are always available with correct blame; a commit is dropped only when all its children are processed and 1000 commits finished later."
  },
  {
   "property": "C33",
   "status": "partial",
   "theorems": [
    "C33_finished_bounded_partial",
    "C33_resumed_refuted"
   ],
   "note": "Proved within one run; across resumed runs old commits are never dropped (refuted)."
  },
  {
   "property": "C34",
   "status": "proved",
   "theorems": [
    "C34_ten_slowest",
    "C34_total"
   ],
   "note": "For every sort that sorts by descending duration."
  },
  {
   "property": "C35",
   "status": "proved",
   "theorems": [
    "C35_round_trip",
    "C35_through_directory"
   ],
   "note": "Every sound state within the format's limits (strings and line lists below 2^32, fewer than 2^64 objects), every iteration order, through the directory. If no two stored texts collide, everything is restored."
  },
  {
   "property": "C36",
   "status": "partial",
   "theorems": [
    "C36_same_hash_partial",
    "C36_refuted"
   ],
   "note": "Refuted: for every 64-bit hash there is a state with two different texts that become equal (no collision handling). Proved: each text read back is a stored text with the hash of the written one, hence equal when no two stored texts collide."
  },
  {
   "property": "C37",
   "status": "partial",
   "theorems": [
    "C37_refuted"
   ],
   "note": "Refuted: every commit without files is lost in a checkpoint, and no child of it can be processed afterwards."
  },
  {
   "property": "C38",
   "status": "partial",
   "theorems": [
    "C38_same_results_partial",
    "C38_resume_succeeds_partial",
    "C38_resume_at_last_partial",
    "C38_refuted",
    "C38_old_fork_refuted"
   ],
   "note": "Proved for every series of incremental runs over a growing history (any iteration orders, any listed commits): each emitted result equals that of one full run; the next run succeeds when the unlisted parents of the listed commits are stored with at least one file, in particular when resuming at the last processed commit with non-empty parents. Refuted in general: resuming above an empty commit panics. Assumes no hash collision and plain_merge (no type change in merges). Also refuted for a branch that starts at a commit evicted from the checkpoint: after 1000 later finished commits no run that starts from the checkpoint can process a commit on top of it (C38_old_fork_refuted)."
  },
  {
   "property": "C39",
   "status": "proved",
   "theorems": [
    "C39_strict",
    "C39_names_both"
   ],
   "note": "For every directory, request and log; the error message names both commits, nothing is emitted or written."
  },
  {
   "property": "C40",
   "status": "proved",
   "theorems": [
    "C40_crash_consistent",
    "C40_complete_write",
    "C40_complete_directory"
   ],
   "note": "For every prior directory, every crash point, removal order and splitting of writes. Process crash; fsync/power loss reordering is outside the model."
  },
  {
   "property": "C41",
   "status": "partial",
   "theorems": [
    "C41_refuted",
    "C41_on_disk_partial",
    "C41_later_write_partial"
   ],
   "note": "Refuted: every Write passes a point (after removing the old directory, before renaming) where no checkpoint is readable. Proved: at each point the old one is untouched or the new one is complete on disk (tmp or in place); a later Write works from every such state."
  },
  {
   "property": "C42",
   "status": "partial",
   "theorems": [
    "C42_refuted",
    "C42_other_files_detected",
    "C42_never_wrong_partial"
   ],
   "note": "Refuted for the repo file: cut at any record boundary it is silently read as a smaller repository. Proved: with a complete repo file any truncation of the other three files is detected; and nothing wrong is ever read."
  },
  {
   "property": "C43",
   "status": "proved",
   "theorems": [
    "C43_records",
    "C43_streams",
    "C43_cut_record"
   ],
   "note": "All four record types, all field values in range; streams; cut records are never taken for records."
  },
  {
   "property": "C44",
   "status": "partial",
   "theorems": [
    "C44_refuted"
   ],
   "note": "Refuted: the option has no influence on reading and writing checkpoints, for all options, states and logs."
  },
  {
   "property": "C45",
   "status": "partial",
   "theorems": [
    "C45_log_recovered_partial",
    "C45_by_id_partial",
    "C45_no_others_partial",
    "C45_bad_date_is_error",
    "C45_merge_status_refuted",
    "C45_symlink_status_refuted",
    "C45_leading_blank_refuted"
   ],
   "note": "Proved for every well-formed log (any number of commits, files, names, subjects, blank lines; renames and copies in git's brace notation; merges). Refuted: files of merges are all reported as modified (also additions); symbolic links and submodules are reported as modified whatever happened; a path starting with a blank is reported twice. A date that cannot be parsed is an error after all earlier commits."
  },
  {
   "property": "C46",
   "status": "partial",
   "theorems": [
    "C46_counts_under_path_partial",
    "C46_arrow_path_refuted"
   ],
   "note": "Proved for all paths without ' => '; refuted for every path containing it (counts go to another name)."
  },
  {
   "property": "C47",
   "status": "proved",
   "theorems": [
    "C47_one_record_per_file",
    "C47_order_irrelevant",
    "C47_succeeds"
   ],
   "note": "For every iteration order of the file map and every cache state: one record per path in both maps, right commit/status, removal reason iff removed; result independent of order and cache; succeeds whenever rename targets are in the blame and the license detector does not fail (otherwise the code panics). Joint statement with the two git logs: C60."
  },
  {
   "property": "C48",
   "status": "proved",
   "theorems": [
    "C48_lines_mirror_blame",
    "C48_skipped_has_no_counts"
   ],
   "note": "Line counter calls are an arbitrary sequence; WeightedComplexity and timings are not modelled. The author part is conditional on the commit being in the metadata (see C49)."
  },
  {
   "property": "C49",
   "status": "partial",
   "theorems": [
    "C49_incremental_refuted",
    "C49_authors_partial",
    "C49_unknown_author_refuted"
   ],
   "note": "Refuted: a line attributed to a commit outside the metadata that was read (every commit before the start of an incremental run) has empty name and email and the zero date (general statement and a concrete two-run history). Proved when all commits of the lines are in the metadata."
  },
  {
   "property": "C50",
   "status": "proved",
   "theorems": [
    "C50_limits",
    "C50_records"
   ],
   "note": "External classifiers (enry, license detector) are arbitrary functions; the exclusion list is the one copied from the code by tools/mkregex.py (Model/GenIgnore.v), whose meaning C74 proves."
  },
  {
   "property": "C51",
   "status": "proved",
   "theorems": [
    "C51_history_irrelevant"
   ],
   "note": "For caches left by any sequence of earlier calls."
  },
  {
   "property": "C52",
   "status": "proved",
   "theorems": [
    "C52_generated"
   ],
   "note": ""
  },
  {
   "property": "C53",
   "status": "proved",
   "theorems": [
    "C53_every_schedule"
   ],
   "note": "Goroutines over unbuffered channels (Model/Net.v, Pipeline.v); every schedule, with step bound (no livelock), no panic, no deadlock, while the caller keeps receiving. A run that fails is C54."
  },
  {
   "property": "C54",
   "status": "partial",
   "theorems": [
    "C54_error_ends_stream_partial",
    "C54_early_error",
    "C54_panic_prefix",
    "C54_worker_panic"
   ],
   "note": "Proved for every error Process.Run returns, and for errors before the log is read: the records of the earlier commits, then close, then the error, in every schedule. Not so for panics: an error while a merge is processed, a missing parent or a malformed patch panics; then the caller has received a prefix and never sees the channel closed (C54_panic_prefix). C54_worker_panic: the same for a panic of the goroutine that makes the records (no metadata for a commit, a file of a result missing in it): the records before it are delivered, the call never returns, the program crashes."
  },
  {
   "property": "C55",
   "status": "partial",
   "theorems": [
    "C55_lines",
    "C55_metadata_partial",
    "C55_metadata_refuted",
    "C55_fallback_blame",
    "C55_git_failure"
   ],
   "note": "C55_lines: contents and commits of all lines, exactly, for every well-formed porcelain output; C55_metadata_partial: data of the commit's first occurrence when git prints it once; C55_metadata_refuted: when git repeats only the file name (a commit that wrote under two names) author etc. are lost (the caller does not use them); C55_fallback_blame discharges the assumption slow_blame_right of the history theorems for any git whose blame output is right; C55_git_failure: a git error is a panic."
  },
  {
   "property": "C56",
   "status": "partial",
   "theorems": [
    "C56_found_partial",
    "C56_callback_error",
    "C56_nothing_else",
    "C56_inside_bare_refuted",
    "C56_git_file_refuted"
   ],
   "note": "C56_found_partial: calls = repositories within the limit and outside working trees, once, in path order; C56_callback_error; C56_nothing_else (unreadable directories). Refuted parts: the search descends into bare repositories (C56_inside_bare_refuted), and a .git file (submodule, linked working tree) is not recognised (C56_git_file_refuted). Missing: links passed as the root, changes of the disk during the search."
  },
  {
   "property": "C57",
   "status": "partial",
   "theorems": [
    "C57_one_line_of_context_refuted",
    "C57_same_blame_partial",
    "C57_same_run_partial"
   ],
   "note": "Refuted with one line of context (C57_one_line_of_context_refuted). For any two settings of two or more lines: Parse and Apply of one change printed twice give the same blame (C57_same_blame_partial), and whole runs over the two printed logs of one history end in the same state with the same results (C57_same_run_partial)."
  },
  {
   "property": "C58",
   "status": "partial",
   "theorems": [
    "C58_every_rename_refuted",
    "C58_renames_refuted",
    "C58_copies_refuted",
    "C58_no_root_patch_refuted",
    "C58_color_refuted",
    "C58_signature_refuted",
    "C58_suppress_blank_empty_refuted",
    "C58_decorate_refuted",
    "C58_noprefix_refuted",
    "C58_same_run_partial",
    "C58_same_records_partial"
   ],
   "note": "Refuted, in two ways. Silently wrong: with diff.renames=false the lines of a renamed file belong to the renaming commit instead of their own (C58_every_rename_refuted: for every history of text files and every pure rename in it, both runs succeed and the lines differ; C58_renames_refuted is a concrete pair of logs), and with diff.renames=copies those of a copied file belong to the commits of the original (C58_copies_refuted). The run panics: diff.suppressBlankEmpty, diff.noprefix, log.decorate (the commit is taken for a merge), log.showRoot=false, color.ui=always (every log), log.showSignature=true (every signed commit; both for all contents). Proved for the other presentation settings modelled (context of two or more lines, joining of hunks, hunk headings, length of ids, similarity, author and message lines): the runs over two printings of one history end in the same state with the same results (C58_same_run_partial), and two calls of Code, one on each printing, deliver the same records commit by commit and pass the same checkpoint on, in every schedule (C58_same_records_partial)."
  },
  {
   "property": "C59",
   "status": "partial",
   "theorems": [
    "C59_written_when_complete_partial",
    "C59_parser_failure_refuted"
   ],
   "note": "Proved for a log that is parsed to its end. Refuted if the log parser fails (over-long or malformed line): the commits before are processed, in every schedule the checkpoint of the truncated log is written before the parser panics, and there are schedules in which the call returns nil first."
  },
  {
   "property": "C60",
   "status": "partial",
   "theorems": [
    "C60_full_run_partial",
    "C60_text_lines",
    "C60_quoted_name_refuted",
    "C60_merge_deletion_refuted"
   ],
   "note": "Composition of C10, C27, C45, C47-C49 and C53 for histories as in C27 (no type change in a merge, no \"@@@del@@@\" path), unquoted paths without \" => \". Refuted for quoted names (no record) and for files a merge deletes (reported as modified). For merges: each file of the merge that differs from all parents has a record; a file with a record differs from the first parent."
  },
  {
   "property": "C61",
   "status": "partial",
   "theorems": [
    "C61_first_commit_partial",
    "C61_several_roots_refuted"
   ],
   "note": "Proved for a single root; false for several (C61_several_roots_refuted)."
  },
  {
   "property": "C62",
   "status": "proved",
   "theorems": [
    "C62_prefix_and_end",
    "C62_failure_is_crash",
    "C62_all_or_crash",
    "C62_patient_reader",
    "C62_executions_end"
   ],
   "note": "All schedules, all sizes of the pieces written and read, all readers that close after the end of the file. That closing early ends in a panic of the program is part of the property as stated; the code gives no error to the caller."
  },
  {
   "property": "C63",
   "status": "proved",
   "theorems": [
    "C63_lines_handled",
    "C63_chunks_do_not_matter",
    "C63_long_line_crash",
    "C63_patch_log_streams",
    "C63_metadata_log_streams"
   ],
   "note": "Scanner over the pipe, any caller; the two log readers of the package are instances, so the theorems about whole outputs (C10-C16, C45) hold for every execution."
  },
  {
   "property": "C64",
   "status": "partial",
   "theorems": [
    "C64_every_repository",
    "C64_unreadable",
    "C64_sha256_refuted"
   ],
   "note": "Proved for trees that can be read and repositories with 40-digit ids or without commits; in unreadable trees only repositories are worked on, none twice, and the error is printed. Refuted for repositories in git's SHA-256 format: they are counted as empty and skipped (C64_sha256_refuted). A panic while working on one repository ends the command: see C90."
  },
  {
   "property": "C65",
   "status": "partial",
   "theorems": [
    "C65_printed_partial",
    "C65_status_zero_refuted"
   ],
   "note": "Refuted: the exit status is 1 only if two or more repositories fail; with one failure, no repository, or an unreadable directory it is 0 and the last line says the work is finished (C65_status_zero_refuted). Proved: every failure is printed (C65_printed_partial)."
  },
  {
   "property": "C66",
   "status": "partial",
   "theorems": [
    "C66_line_partial",
    "C66_blanks_refuted"
   ],
   "note": "loc, sloc, comments, complexity and status are the record's, and the status lookup cannot fail; refuted for blanks, which shows the number of comments (C66_blanks_refuted). The text of the line: C103."
  },
  {
   "property": "C67",
   "status": "proved",
   "theorems": [
    "C67_patches_and_metadata",
    "C67_graph_has_them"
   ],
   "note": "For every repository and every option; the meaning of git's arguments is in Spec/Selection.v. CommitFromIncl is empty or a name git allows (no '^' or '..')."
  },
  {
   "property": "C68",
   "status": "partial",
   "theorems": [
    "C68_full_run",
    "C68_incremental",
    "C68_incremental_without_it",
    "C68_covers_descendants",
    "C68_parents_shown",
    "C68_root_refuted",
    "C68_other_branches_refuted"
   ],
   "note": "Proved: full runs (C68_full_run) and runs with CommitFromIncl that has a parent (C68_incremental, C68_incremental_without_it, C68_covers_descendants, C68_parents_shown). Refuted: CommitFromIncl without a parent is an error of git, which crashes the program (C68_root_refuted, C62); AllBranches is ignored in incremental runs (C68_other_branches_refuted)."
  },
  {
   "property": "C69",
   "status": "partial",
   "theorems": [
    "C69_unchanged_partial",
    "C69_changes_ignored_refuted",
    "C69_branches_refuted",
    "C69_code_refuted"
   ],
   "note": "Proved while the repository does not change (C69_unchanged_partial). Refuted otherwise: the commit graph is read once per object (C69_changes_ignored_refuted), so a later Code panics on a commit added since (C69_code_refuted), Branches panics if the default branch moved and ignores new pull requests (C69_branches_refuted)."
  },
  {
   "property": "C70",
   "status": "partial",
   "theorems": [
    "C70_added_commit_refuted"
   ],
   "note": "Refuted: C70_added_commit_refuted, for every log and schedule: if the patch log has a commit the metadata log did not have, the call never returns nil; either Run returns an error or the program crashes (with the stale graph of the example, or with a good one, C54_worker_panic). While nothing is added the logs agree (C67)."
  },
  {
   "property": "C71",
   "status": "proved",
   "theorems": [
    "C71_by_commit",
    "C71_readers",
    "C71_same_records"
   ],
   "note": "For every log, metadata, classifier and schedule, and every caller that reads all records (C71_by_commit); the records are those of Code (C71_same_records, C53). One caller goroutine that reads the commits in order; logs that the worker cannot process are C54. C71_readers: the same for a caller that starts a goroutine for each commit and reads its records there."
  },
  {
   "property": "C72",
   "status": "partial",
   "theorems": [
    "C72_by_commit_refuted",
    "C72_by_commit_gets",
    "C72_code_refuted",
    "C72_code_partial"
   ],
   "note": "Refuted: a caller of CodeByCommit that leaves a record unread, or stops early, waits for ever, under every schedule (C72_by_commit_refuted, C72_by_commit_gets: exactly what it gets); likewise Code (C72_code_refuted). Proved: it returns if every record is received, even when the caller does not wait for the channels to be closed (C72_code_partial, C71_by_commit)."
  },
  {
   "property": "C73",
   "status": "partial",
   "theorems": [
    "C73_same_records_partial",
    "C73_retyped_refuted"
   ],
   "note": "Proved for every log text in which no merge removes and writes one path (C73_same_records_partial). Refuted for the others: a merge that turns a file into a symbolic link is reported with its line in one call and as if deleted in another (C73_retyped_refuted). The external classifiers are functions there; the licence detector is not one if two licences are equally likely (C86)."
  },
  {
   "property": "C74",
   "status": "proved",
   "theorems": [
    "C74_excluded",
    "C74_license_names",
    "C74_generated_markers"
   ],
   "note": "For every path and line; the meaning of expressions is Spec/Regex.v, the texts of the expressions are copied from the code (tools/mkregex.py)."
  },
  {
   "property": "C75",
   "status": "partial",
   "theorems": [
    "C75_generator",
    "C75_pattern",
    "C75_no_patterns_refuted",
    "C75_list_is_generated",
    "C75_listed_partial",
    "C75_last_line_refuted"
   ],
   "note": "Refuted: the last line of custom_patterns.txt (.parquet$) has no newline and genignore drops it, so .parquet files are not excluded (C75_last_line_refuted); an empty pattern file would exclude everything (C75_no_patterns_refuted). Proved: for every file, the generated expression matches what the lines that end in a newline match (C75_generator), and the list in the code is generated so (C75_list_is_generated, C75_listed_partial)."
  },
  {
   "property": "C76",
   "status": "partial",
   "theorems": [
    "C76_complaints_partial",
    "C76_no_false_alarm",
    "C76_ends",
    "C76_success_refuted",
    "C76_all_repositories_partial",
    "C76_hypotheses_hold",
    "C76_full_refuted",
    "C76_silent_refuted"
   ],
   "note": "Refuted: SUCCESS is printed whenever the command ends, whatever was found (C76_success_refuted, C76_full_refuted), and other commits on lines of at most 10 bytes and blanks around lines are ignored (C76_silent_refuted). Proved: a file is complained about exactly if it has lines and the blames are not similar (C76_complaints_partial), equal blames cause no complaint (C76_no_false_alarm), and the command ends exactly if Run succeeds and git blame works for every file with lines (C76_ends). For several repositories at once: C76_all_repositories_partial."
  },
  {
   "property": "C77",
   "status": "partial",
   "theorems": [
    "C77_code_call_partial"
   ],
   "note": "C77_code_call_partial: for every usable repository and every git that answers as Spec/GitAnswers.v says (commands with all their arguments are written out there), the call of Code from the first git command to the last record. Missing: what `usable` leaves out, where the property is false (C30, C60: merges that change the type of a file, names git quotes, over-long lines), and runs from a checkpoint (C82)."
  },
  {
   "property": "C78",
   "status": "partial",
   "theorems": [
    "C78_context_is_ignored",
    "C78_no_command_in_the_context",
    "C78_cancelling_ends_the_call_refuted"
   ],
   "note": "Refuted: no git command is bound to the caller's context, and nothing else looks at it, so cancelling has no effect (C78_cancelling_ends_the_call_refuted). Proved: with a context cancelled before the call everything is delivered as in C77 (C78_context_is_ignored); the model never asks git in the caller's context (C78_no_command_in_the_context)."
  },
  {
   "property": "C79",
   "status": "partial",
   "theorems": [
    "C79_two_files_left",
    "C79_at_most_two",
    "C79_no_files_left_refuted"
   ],
   "note": "Refuted: every full call leaves two empty files (C79_no_files_left_refuted, C79_two_files_left). Proved: never more than two, none when the repository has no HEAD commit (C79_at_most_two)."
  },
  {
   "property": "C80",
   "status": "partial",
   "theorems": [
    "C80_branches_call_partial",
    "C80_without_all_branches"
   ],
   "note": "C80_branches_call_partial: for every usable repository and every git that answers as Spec/BranchAnswers.v says, the call of Branches from the first git command to the last record; C80_without_all_branches. Missing: what `branches_usable` leaves out, where the property is false (C24: names with the separator, a default branch whose name has white space at an end), and what the records lack (C18-C21: several merges, several places of branching off): `branch_right` says for each field what is proved of it."
  },
  {
   "property": "C81",
   "status": "partial",
   "theorems": [
    "C81_failed_commands_partial",
    "C81_graph_command_refuted"
   ],
   "note": "Refuted for one command: when the log that reads the graph fails, the program ends (C81_graph_command_refuted). Proved for all others, also when several fail (C81_failed_commands_partial; C23_errors_returned for every error before the workers start)."
  },
  {
   "property": "C82",
   "status": "partial",
   "theorems": [
    "C82_incremental_call_partial",
    "C82_next_call_partial",
    "C82_two_calls_partial"
   ],
   "note": "C82_incremental_call_partial: a call of Code with CommitFromIncl (with or without CommitFromMakeNonIncl) that finds a right checkpoint, from the first git command to the last record and the new checkpoint. C82_next_call_partial: what an earlier call left, written to disk and read again, is such a checkpoint. C82_two_calls_partial: a full call that returned without error, and one that continues it; it works if the old parents of new commits are the last commit or its parents, or if the first call was about commits with at most 1000 parents. Missing: what `usable` leaves out (C60), commits with empty trees (lost in checkpoints, C37)."
  },
  {
   "property": "C83",
   "status": "partial",
   "theorems": [
    "C83_never_silent_partial",
    "C83_incremental_never_silent_partial",
    "C83_error_returned",
    "C83_no_temporary_file",
    "C83_failed_log_refuted"
   ],
   "note": "C83_never_silent_partial, C83_incremental_never_silent_partial: for every usable repository and every set of failing commands and temporary files, the caller receives the right records of the first commits, and all of them if the call returns without an error. C83_error_returned, C83_no_temporary_file: these failures return an error. Refuted for the three logs: the program ends with a panic (C83_failed_log_refuted), as it does for the blame (part of never_silent). Commands are modelled as failing as a whole; output before the failure is C62."
  },
  {
   "property": "C84",
   "status": "partial",
   "theorems": [
    "C84_next_call_partial",
    "C84_everything_delivered_partial",
    "C84_each_commit_once_partial"
   ],
   "note": "For series of any length (C84_next_call_partial, C84_everything_delivered_partial, C84_each_commit_once_partial), by an invariant over the calls: the checkpoint has every commit delivered so far. Missing: what `usable` leaves out (C60), commits with empty trees (C37), calls about commits with more than 1000 parents together, after which old commits are missing in the checkpoint (C33, C38_old_fork_refuted)."
  },
  {
   "property": "C85",
   "status": "partial",
   "theorems": [
    "C85_code_by_commit_partial",
    "C85_incremental_partial"
   ],
   "note": "Proved for full calls (C85_code_by_commit_partial) and for calls that resume a checkpoint (C85_incremental_partial), for every caller that reads everything in one goroutine, and for a caller that starts a goroutine for each commit; the same theorems say that a call whose (one-goroutine) caller leaves anything unread never returns, so 'whatever the caller does' is false. Missing: what `usable` leaves out (C60); the ordinals are 1, 2, ... in the order of git's metadata log, which need not be the order of delivery."
  },
  {
   "property": "C86",
   "status": "partial",
   "theorems": [
    "C86_detect_partial",
    "C86_clear_winner_partial",
    "C86_equally_likely_refuted",
    "C86_determined_refuted",
    "C86_file_info_refuted",
    "C86_detector_works"
   ],
   "note": "Proved: a reported licence was found, is likely enough and none is more likely, none is reported exactly if none is likely enough (C86_detect_partial); the result is determined if one licence is more likely than the others (C86_clear_winner_partial); the detector works in the sense the other theorems assume (C86_detector_works). Refuted: any two equally likely licences are reported in turn, depending on the order of a Go map (C86_equally_likely_refuted, C86_determined_refuted), so the information on one file differs from call to call (C86_file_info_refuted). The database itself is a parameter."
  },
  {
   "property": "C87",
   "status": "partial",
   "theorems": [
    "C87_output_right_partial",
    "C87_files_partial",
    "C87_same_question_refuted",
    "C87_other_hash_refuted",
    "C87_close_error_refuted",
    "C87_two_calls_refuted",
    "C87_one_after_the_other_partial"
   ],
   "note": "Proved for calls one after the other with crashes at any point, provided the joined arguments and HEAD determine git's answer and their hashes do not collide (C87_output_right_partial). Refuted beyond that: arguments that are the same once joined with '@', or a repository whose other refs changed (C87_same_question_refuted); repositories with names of another length or without commits (C87_other_hash_refuted); the dropped error of gw.Close leaves a file every later call fails on (C87_close_error_refuted); two calls at a time can both fail although git works (C87_two_calls_refuted). The function is exported but nothing in the repository calls it. C87_files_partial: which files a call changes, wherever it is cut off, and what they hold after it. C87_one_after_the_other_partial: on files that are open while written, a call alone and the next one both get the whole output."
  },
  {
   "property": "C88",
   "status": "partial",
   "theorems": [
    "C88_files_partial",
    "C88_empty_refuted",
    "C88_quoted_refuted",
    "C88_space_refuted",
    "C88_failure_refuted"
   ],
   "note": "Proved for commits with files whose names git prints as they are, the first not starting and the last not ending with white space (C88_files_partial). Refuted for commits without files (a file with an empty name), quoted names, a first name starting with a space, and failures of git (panic): C88_empty_refuted, C88_quoted_refuted, C88_space_refuted, C88_failure_refuted. The package is exported but nothing in the repository uses it."
  },
  {
   "property": "C89",
   "status": "partial",
   "theorems": [
    "C89_whole_lines_partial",
    "C89_all_written",
    "C89_one_line",
    "C89_other_arguments",
    "C89_two_loggers_refuted"
   ],
   "note": "Proved for goroutines that share a logger (C89_whole_lines_partial, C89_all_written) and for what a call writes (C89_one_line, C89_other_arguments). Refuted for two loggers with one writer, as two Ripsrc objects on os.Stdout have (C89_two_loggers_refuted): the line and its newline are two writes and the mutex is per logger."
  },
  {
   "property": "C90",
   "status": "partial",
   "theorems": [
    "C90_code_command_partial",
    "C90_from_sha_partial",
    "C90_one_failing_repository_refuted",
    "C90_sha_elsewhere_refuted"
   ],
   "note": "Proved for repositories the call of Code can work on (`ready`), with and without --sha, also if the checkpoint cannot be written in some of them (C90_code_command_partial, C90_from_sha_partial). Refuted: if one of git's logs fails in one repository the whole command ends with a panic, nothing is said at the end and later repositories are not worked on (C90_one_failing_repository_refuted); the same with --sha as soon as one repository does not have that commit (C90_sha_elsewhere_refuted). Missing: what `usable` leaves out (C60); the number of blank lines is wrong (C66)."
  },
  {
   "property": "C91",
   "status": "partial",
   "theorems": [
    "C91_branches_command_partial",
    "C91_graph_log_refuted"
   ],
   "note": "Proved for repositories without commits, repositories whose git answers as documented, and repositories in which one of the commands fails (C91_branches_command_partial: `branches_ready`; HEAD must be at a branch, see C80). Refuted for the command that reads the commit graph: if it fails in one repository the whole command ends with a panic (C91_graph_log_refuted). The numbers of the lines are those of the records, whose meaning is that of C80."
  },
  {
   "property": "C92",
   "status": "proved",
   "theorems": [
    "C92_branch_is_linear",
    "C92_default_branch_is_linear"
   ],
   "note": "Every recursive closure is modelled a second time with a counter (Model/Cost.v); the theorems say that the counted version returns the same and bound the count. The loop over the parents inside a call and the sorting at the end are not counted; getMergeCommit (one loop over the children of the head) is not either."
  },
  {
   "property": "C93",
   "status": "partial",
   "theorems": [
    "C93_same_answer",
    "C93_linear_history_partial",
    "C93_polynomial_refuted"
   ],
   "note": "Refuted for every n by a family of histories; the bound is proved for histories without merges (C93_linear_history_partial). Nothing in the module calls LastCommonParent (the call in process.go is commented out)."
  },
  {
   "property": "C94",
   "status": "partial",
   "theorems": [
    "C94_no_profile",
    "C94_profile_partial",
    "C94_trace_refuted",
    "C94_complete_refuted",
    "C94_other_kind"
   ],
   "note": "Proved when at most one repository fails, for the kinds other than trace (C94_profile_partial); other values of the flag end the program before anything is done (C94_other_kind: a panic, not a message). Refuted: with two failing repositories os.Exit skips the deferred hook, so that the profile is not completed (C94_complete_refuted); the path said for a trace is not that of its file (C94_trace_refuted; the file names are those of the documentation of github.com/pkg/profile, which is not in the repository)."
  },
  {
   "property": "C95",
   "status": "partial",
   "theorems": [
    "C95_length_and_characters",
    "C95_every_string",
    "C95_equally_likely_refuted",
    "C95_many_characters_refuted",
    "C95_later_characters_refuted"
   ],
   "note": "Proved for 1 to 255 characters: the length and the characters, for every outcome, and that every string can come out. Refuted: equal chances (A has 5 cases of 256, Z has 4: C95_equally_likely_refuted); lists whose length is a multiple of 256 (panic) and longer ones (the later characters never come out). Only the repository's tests use the package."
  },
  {
   "property": "C96",
   "status": "proved",
   "theorems": [
    "C96_message_round_trip",
    "C96_marshal_unmarshal",
    "C96_message_tells",
    "C96_sizes"
   ],
   "note": "The msgp library's reader and writer are modelled by the byte formats they use (Model/Msgp.v), not its buffering."
  },
  {
   "property": "C97",
   "status": "proved",
   "theorems": [
    "C97_run_slice",
    "C97_run_map",
    "C97_parser_get_all",
    "C97_panic",
    "C97_process_get_all",
    "C97_process_panic",
    "C97_process_early_error"
   ],
   "note": "What happens when the goroutine of the log parser panics is C59. CodeSlice and BranchesSlice collect in the same way from Code and Branches, whose callers receive until the channel is closed in C53 and C23."
  },
  {
   "property": "C98",
   "status": "partial",
   "theorems": [
    "C98_goroutine_left_refuted",
    "C98_one_per_call_refuted",
    "C98_only_that_partial"
   ],
   "note": "The full property is false of the code: the channel filejobs (commitmeta.go:149) is never closed, so its reader (150-154) waits for ever. C98_goroutine_left_refuted: after every call whose log starts there is one goroutine more, under every schedule; C98_one_per_call_refuted: after any series of calls there are as many as calls whose log started. C98_only_that_partial is what holds: it is the only one left, and in its presence every call ends within a bounded number of steps, however many files the log lists, returns what was sent in order and leaves nothing in the channel."
  },
  {
   "property": "C99",
   "status": "proved",
   "theorems": [
    "C99_same_run",
    "C99_run_counted",
    "C99_after_call"
   ],
   "note": "Durations are arbitrary integers. The text printed from it: C101."
  },
  {
   "property": "C100",
   "status": "partial",
   "theorems": [
    "C100_other_file_refuted",
    "C100_contents_not_compared_refuted",
    "C100_fits_partial"
   ],
   "note": "The full property is false of the code (C100_other_file_refuted): context and deleted lines of a hunk are not compared with the file. C100_contents_not_compared_refuted shows it for every patch whatsoever: applied to any other file with as many lines it returns as well, copying the lines at the same places. C100_fits_partial says what is checked instead: a file shorter than the last line the patch mentions is refused, any other is patched by place, and its result is determined exactly."
  },
  {
   "property": "C101",
   "status": "proved",
   "theorems": [
    "C101_report",
    "C101_readable"
   ],
   "note": "How time.Duration is written is a parameter; C101_readable assumes that it is readable, C101_report does not. Errors of writing are ignored by the code and not modelled."
  },
  {
   "property": "C102",
   "status": "partial",
   "theorems": [
    "C102_up_to_date_partial",
    "C102_one_per_second_partial",
    "C102_goes_on",
    "C102_end_refuted"
   ],
   "note": "The full property is false of the code: the function returned by StartMemLogs does nothing (the call of ticker.Stop is commented out), so the goroutine goes on for ever and can print any number of lines after the end, whatever has happened before (C102_end_refuted, C102_goes_on). Proved for every execution: each line is up to date (C102_up_to_date_partial; it can show the value that the other one measured), at most one line per second after the first (C102_one_per_second_partial). The race on allocatedMem is modelled as interleaving of whole reads and writes."
  },
  {
   "property": "C103",
   "status": "partial",
   "theorems": [
    "C103_line",
    "C103_line_readable_partial",
    "C103_output_readable_partial",
    "C103_alike_refuted"
   ],
   "note": "C103_line: the text, from the record. The full property is false of the code (C103_alike_refuted: nothing is quoted, so a file in one repository and another file of another commit in a repository with a suitable name are printed alike). Proved when no part of the line contains what ends it there (C103_line_readable_partial), and for whole outputs if there are no newlines in the parts, either (C103_output_readable_partial). The output is not a terminal (no colours); the text of a license is a parameter."
  },
  {
   "property": "C104",
   "status": "proved",
   "theorems": [
    "C104_line",
    "C104_readable"
   ],
   "note": "C104_line: the text, from the branch; C104_readable. The first word of the line, spaces and the newline are those of fmt.Println."
  },
  {
   "property": "C105",
   "status": "partial",
   "theorems": [
    "C105_stays_partial",
    "C105_distinct_partial",
    "C105_reuse_partial",
    "C105_fast_forward_refuted",
    "C105_reuse_refuted",
    "C105_same_id_refuted"
   ],
   "note": "Refuted three ways, each witnessed: a fast-forward merge changes the identifier (C105_fast_forward_refuted); a branch made anew under the same name at the same place keeps the identifier of the deleted one, as the code hashes the place of branching off where the comment on the field says the first commit (C105_reuse_refuted); a branch without common history named like another one followed by a commit hash has its identifier (C105_same_id_refuted). Proved: it stays the same however both branches grow and when the branch is merged by a merge commit, as long as the default branch takes commits of the branch only by merging its head and the new commits of the branch take nothing older than a place where it left (C105_stays_partial); different names give different identifiers unless one is the other followed by a commit hash (C105_distinct_partial); under one name the identifiers agree exactly if the first places of branching off do (C105_reuse_partial). The checksum is a parameter without collisions."
  }
 ]
}