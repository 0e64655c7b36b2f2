(** * The text of the line printed for a branch (/repo/ripsrc/cmd/cmdbranches/cmd.go:109-115)

    Model/BranchesCommand.v says what is in the line; here it is written. *)
From Verif.Model Require Import Base GoStrings Branches BranchMeta Stats StatsText BranchesCommand.

(** cmd.go:110-114: the operands of Println. *)
Definition branch_words (b : branch_item) : list bytes :=
  [B "[BR]"; bi_name b; B "commits"; int_text (bi_commits b); B "first_commit"; bi_first b] ++
  match bi_commit0 b with Some c => [B "commits[0]"; c] | None => [] end.
Definition branch_text (b : branch_item) : bytes := println (branch_words b).
