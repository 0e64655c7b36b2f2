(** * What the command branches should print *)
From Verif.Model Require Import Base GoStrings GoSort ParentsGraph Branches Api CodeCommand BranchesCommand.
From Verif.Spec Require Import Text GitLog CommitGraph Selection Refs BranchAnswers Failing CodePrinting.

(** A line shows a branch: its name, how many commits it has, its first commit, and the first of its commits if there is one. *)
Definition shows_branch (b : branch) (i : branch_item) : Prop :=
  bi_name i = br_name b /\ bi_commits i = length (br_commits b) /\ bi_first i = br_first b /\
  (forall c rest, br_commits b = c :: rest -> bi_commit0 i = Some c) /\ (br_commits b = [] -> bi_commit0 i = None).

(** The default branch, then the other branches of origin in some order, each with a right record. *)
Definition branches_listed (sha : bytes -> bytes) (R : gitrepo) (dname : bytes) (refs : list ref) (bs : list branch) : Prop :=
  exists b0 recs, bs = b0 :: recs /\
    br_name b0 = dname /\ br_head b0 = g_head R /\ br_default b0 = true /\ lists_exactly (br_commits b0) (reaches (g_parents R) (g_head R)) /\
    map (fun r => (br_name r, br_head r)) recs ≡ₚ map (fun r => (rf_name r, rf_commit r)) (filter (fun r => rf_name r <> dname /\ rf_name r <> B "HEAD") refs) /\
    Forall (branch_right sha (g_parents R) (g_head R)) recs.

(** A repository the command can work on: git answers as it should, or one of its commands fails, but for the one that reads the graph. *)
Record branches_ready {T} (parse_date : bytes -> option T) (R : gitrepo) (dname : bytes) (refs : list ref) (git : bound -> list bytes -> outcome bytes)
    (works : bool) (head : bytes) : Prop := BranchesReady {
  br_usable : branches_usable parse_date R dname refs;
  br_answers : if works then branch_answers R dname refs true git
    else exists git0 cmd, branch_answers R dname refs true git0 /\ may_fail git0 git /\ cmd ∈ branch_commands true /\ fails git cmd /\ (forall x, git x graph_command = git0 x graph_command);
  br_rev_parse : head = g_head R ++ [NL] }.
