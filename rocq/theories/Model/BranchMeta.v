(** * branchmeta: the list of branches and the default branch

    /repo/ripsrc/branchmeta/branchmeta.go, default.go; /repo/ripsrc/branches2/process.go:105-111.  Simplification: an external git
    command is its standard output, or an error. *)
From Verif.Model Require Import Base GoStrings GoSort CommitMeta.

(** branchmeta.go:24-28 (BranchWithCommitTime); [T]: time.Time. *)
Record branch_ref (T : Type) := BranchRef { bn_name : bytes; bn_commit : bytes; bn_time : T }.
Arguments BranchRef {T}. Arguments bn_name {T}. Arguments bn_commit {T}. Arguments bn_time {T}.

Section Get.
Context {T : Type}.
(** gittime.Parse (/repo/ripsrc/gittime/gittime.go:6-9); [None]: an error. *)
Context (parse_date : bytes -> option T).

Definition SEP : bytes := B "@@@".
Definition ORIGIN : bytes := B "origin/".

(** branchmeta.go:51-85: one line of the output; [None]: the line is skipped. *)
Definition ref_of_line (use_origin include_default : bool) (dflt line0 : bytes) : outcome (option (branch_ref T)) :=
  let line := trim_space line0 in
  match line with
  | [] => Ret None
  | c :: _ =>
      if bool_decide (c = "("%char) then Ret None
      else match splitn 3 SEP line with
           | [commit; name0; date] =>
               match parse_date date with
               | None => Panic (B "invalid date format")
               | Some t =>
                   do name <- (if use_origin
                               then if has_prefix ORIGIN name0 then Ret (drop (length ORIGIN) name0)
                                    else Panic (B "branch name does not have origin/ prefix")
                               else Ret name0);
                   if bool_decide (name = B "HEAD") then Ret None
                   else if negb include_default && bool_decide (name = dflt) then Ret None
                   else Ret (Some (BranchRef name commit t))
               end
           | _ => Panic (B "unexpected format")
           end
  end.
(** branchmeta.go:49-86: the loop over the lines. *)
Definition refs_of_lines (use_origin include_default : bool) (dflt : bytes) (lines : list bytes) : outcome (list (branch_ref T)) :=
  ofold (fun acc line => do r <- ref_of_line use_origin include_default dflt line; Ret (acc ++ option_list r)) [] lines.

(** branchmeta.go:87-91 (sort.Slice): not stable, but the names are distinct. *)
Definition name_le (a b : branch_ref T) : Prop := bytes_le (bn_name a) (bn_name b).
#[global] Instance name_le_dec : RelDecision name_le := fun a b => decide (bytes_le (bn_name a) (bn_name b)).

(** branchmeta.go:95-110 (getDefaultBranch); [out]: what [git symbolic-ref --short HEAD] prints. *)
Definition default_name (out : outcome bytes) : outcome bytes :=
  do data <- out;
  let res := trim_space data in
  if bool_decide (res = []) then Err (B "could not get the default branch name") else Ret res.

(** branchmeta.go:30-93 (Get); [refs use_origin]: what [git for-each-ref] prints for refs/remotes/origin or refs/heads. *)
Definition branch_get (use_origin include_default : bool) (head_out : outcome bytes) (refs : bool -> outcome bytes) : outcome (list (branch_ref T)) :=
  do dflt <- default_name head_out;
  do data <- refs use_origin;
  do res <- refs_of_lines use_origin include_default dflt (split_char NL data);
  Ret (merge_sort name_le res).
End Get.

(** default.go:29-39 (headBranch); [out]: what [git rev-parse --abbrev-ref HEAD] prints. *)
Definition head_branch (out : outcome bytes) : outcome bytes :=
  do data <- out;
  let res := trim_space data in
  if bool_decide (res = B "HEAD") then Err (B "cound not retrieve the name of the default branch") else Ret res.
(** default.go:41-51 (headCommit); [out]: what [git rev-parse HEAD] prints. *)
Definition head_commit (out : outcome bytes) : outcome bytes :=
  do data <- out;
  let res := trim_space data in
  if bool_decide (length res <> 40) then Err (B "unexpected output from git rev-parse HEAD") else Ret res.
(** default.go:14-27 (GetDefault): name and commit. *)
Definition get_default (name_out commit_out : outcome bytes) : outcome (bytes * bytes) :=
  do name <- head_branch name_out; do commit <- head_commit commit_out; Ret (name, commit).

(** /repo/ripsrc/branches2/process.go:105-111 (getFirstCommit); [out]: what [git rev-list --max-parents=0 HEAD] prints. *)
Definition first_commit (out : outcome bytes) : outcome bytes := do data <- out; Ret (trim_space data).
(** /repo/ripsrc/branches2/name_hash.go:29-42 (getNamesAndHashes) *)
Definition names_and_hashes {T} (l : outcome (list (branch_ref T))) : outcome (list (bytes * bytes)) :=
  do res <- l; Ret (map (fun r => (bn_name r, bn_commit r)) res).
