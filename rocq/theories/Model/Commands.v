(** * The commands code and branches

    /repo/ripsrc/cmd/cmdcode/cmd.go, /repo/ripsrc/cmd/cmdbranches/cmd.go, /repo/ripsrc/cmd/cmdutils/errors.go and repo_run.go.
    Simplifications: profiling (Profile.v), memory logs (MemLogs.v) and the text of progress messages are left out; a panic in the work on a repository (which ends the
    program) is left out: [run] returns. *)
From Verif.Model Require Import Base GoStrings GitRepos CommitMeta CodeInfo.

(** What is printed at the end (cmdcode/cmd.go:57-79, errors.go:10-27). *)
Inductive failure := DirError (e : bytes) | RepoError (p : path) (e : bytes) | NoRepos.
Inductive message := FailedWith (f : failure) | OneOf (f : failure) | Failed | SkippedEmpty (n : nat) | Finished (repos entries : nat).

Section Commands.
(** The directory and the last element of its absolute path; what git rev-parse HEAD prints in a repository; the records printed for a repository and the
    error of Ripsrc.CodeByCommit or Ripsrc.Branches (cmdcode/cmd.go:102-150, cmdbranches/cmd.go:96-132; no records counted by branches). *)
Context (t : node) (root : bytes) (head : path -> bytes) (run : path -> nat * option bytes).

(** cmdutils/repo_run.go:38-49 (hasHeadCommit) *)
Definition has_head_commit (p : path) : bool := Nat.eqb (length (trim_space (head p))) 40.
(** cmdutils/repo_run.go:17-36 (RunOnRepo): records, and the error; [None] inside: ErrRevParseFailed. *)
Definition run_on_repo (p : path) : nat * option (option bytes) :=
  if has_head_commit p then let '(n, e) := run p in (n, match e with Some e => Some (Some e) | None => None end) else (0, Some None).

(** Stats and repoErrors (cmdcode/cmd.go:29-42); [s_done]: the repositories worked on, in order. *)
Record stats := Stats { s_repos : nat; s_skipped : nat; s_entries : nat; s_errors : list failure; s_done : list path }.
(** The callback of cmdcode/cmd.go:83-94; it always returns nil. *)
Definition on_dir (s : stats) (p : path) : stats :=
  let '(n, e) := run_on_repo p in
  let s := Stats (s_repos s + 1) (s_skipped s) (s_entries s + n) (s_errors s) (s_done s ++ [p]) in
  match e with
  | Some None => Stats (s_repos s) (s_skipped s + 1) (s_entries s) (s_errors s) (s_done s)
  | Some (Some e) => Stats (s_repos s) (s_skipped s) (s_entries s) (s_errors s ++ [RepoError p e]) (s_done s)
  | None => s
  end.
(** cmdcode/cmd.go:81-100 (runOnDirs); what was counted is returned with an error, too. *)
Definition run_on_dirs : stats * option bytes :=
  let '(calls, e) := iter_dir (fun _ _ => None) t [] root 1 [] in
  (fold_left on_dir calls (Stats 0 0 0 [] []), e).

(** cmdutils/errors.go:10-12 (ExitWithErr): prints, and returns. *)
Definition exit_with_err (f : failure) : list message := [FailedWith f].
(** cmdutils/errors.go:14-27 (ExitWithErrs): what is printed, and whether the program exits with status 1. *)
Definition exit_with_errs (fs : list failure) : list message * bool :=
  match fs with [f] => (exit_with_err f, false) | _ => (map OneOf fs ++ [Failed], true) end.
(** cmdcode/cmd.go:44-79 (Run): what is printed, and the exit status. *)
Definition command : list message * nat :=
  let '(s, e) := run_on_dirs in
  let m1 := match e with Some e => exit_with_err (DirError e) | None => [] end in
  let '(m2, exit) := match s_errors s with [] => ([], false) | fs => exit_with_errs fs end in
  if exit : bool then (m1 ++ m2, 1)
  else (m1 ++ m2 ++ (if decide (s_repos s = 0) then exit_with_err NoRepos else []) ++
        (if decide (s_skipped s = 0) then [] else [SkippedEmpty (s_skipped s)]) ++ [Finished (s_repos s) (s_entries s)], 0).
End Commands.

(** The numbers in the line printed for a record (cmdcode/cmd.go:119): loc, sloc, comments, blanks, complexity. *)
Definition printed_numbers {T L} (r : bresult T L) : list (bytes * Z) :=
  [(B "loc", t_lines (br_totals r)); (B "sloc", t_code (br_totals r)); (B "comments", t_comment (br_totals r));
   (B "blanks", t_comment (br_totals r)); (B "complexity", t_complexity (br_totals r))].
(** The status in that line: blame.Commit.Files[blame.Filename].Status, a panic if the commit has no such file. *)
Definition printed_status {T L} (r : bresult T L) : outcome cstatus :=
  match mc_files (br_commit r) !! br_filename r with Some f => Ret (cf_status f) | None => Panic (B "nil pointer") end.
