(** * Reading back the lines of branches *)
From Verif.Model Require Import Base Branches BranchMeta BranchesCommand.
From Verif.Spec Require Import Text.

(** As git allows names of references and prints ids: without spaces and newlines. *)
Definition one_word (x : bytes) : Prop := SP ∉ x /\ NL ∉ x.
Definition plain_branch (b : branch) : Prop := one_word (br_name b) /\ one_word (br_first b) /\ Forall one_word (br_commits b).
(** What the line shows of a branch is the same. *)
Definition same_branch (b b' : branch) : Prop :=
  br_name b = br_name b' /\ length (br_commits b) = length (br_commits b') /\ br_first b = br_first b' /\ br_commits b !! 0 = br_commits b' !! 0.
