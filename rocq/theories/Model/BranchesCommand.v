(** * The command branches: what it prints

    Models /repo/ripsrc/cmd/cmdbranches/cmd.go:102-132 (runOnRepo) with the call of Branches it makes (Model/BranchesApi.v), and the loop over the
    repositories with it (Model/Commands.v, Model/CodeCommand.v).
    Simplifications: a line is kept as what is in it; the progress messages of RunOnRepo, times and the lines of the library's own log are left out. *)
From Verif.Model Require Import Base GoStrings GoSort IncBlame ParentsGraph Process CommitMeta Branches BranchMeta Net BranchPool GitRepos LogArgs Api BranchesApi Commands CodeCommand.

(** cmd.go:110-114 *)
Record branch_item := BranchItem { bi_name : bytes; bi_commits : nat; bi_first : bytes; bi_commit0 : option bytes }.
Definition branch_line (b : branch) : branch_item := BranchItem (br_name b) (length (br_commits b)) (br_first b) (head (br_commits b)).
(** cmd.go:119-122 *)
Definition branches_command_opts : branch_opts := BranchOpts (ROpts [] false false true) true [].

Section BranchesCommand.
Context {T : Type} (parse_date : bytes -> option T) (sha : bytes -> bytes).
Context (graph_order : graph -> list (bytes * list bytes)) (pr_order : list bytes -> list bytes) (rng : BranchPool.item -> list bytes -> list bytes).
Context (git : bound -> list bytes -> outcome bytes) (dir : bytes) (cpus : nat).

(** What the loop of cmd.go:109 has received. *)
Definition branches_in_hand (l : option blocal) : list branch := match l with Some (LBU (BULoop g)) | Some (LBU (BUStop g)) => g | _ => [] end.
(** cmd.go:125-131: the error of Branches is returned; no records are counted. *)
Definition branches_finish (items : list branch_item) (oc : outcome unit) : repo_end branch_item :=
  match oc with Ret _ => Done items 0 None | Err e => Done items 0 (Some e) | Panic _ => Crashed items end.
(** [e] is a possible end of the work on the repository: some schedule leads to it. *)
Definition branches_may_end (e : repo_end branch_item) : Prop :=
  match branches_setup parse_date sha graph_order git dir branches_command_opts with
  | Ret s =>
      let act := branches_act sha pr_order rng branches_command_opts cpus s in
      exists c, rtc (step act) (branches_start cpus s) c /\
        let items := map branch_line (branches_in_hand (locals c !! 3)) in
        (crashing act c /\ exists printed, printed `prefix_of` items /\ e = Crashed printed) \/
        (final act c /\ exists oc, locals c !! 0 = Some (LBM (BStop oc)) /\ e = branches_finish items oc)
  | Err _ | Panic _ => e = Crashed []
  end.
End BranchesCommand.
