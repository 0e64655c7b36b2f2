(** * What git answers about branches, and what a record about a branch should say

    The commands are written out here once more, independently of the model. *)
From Verif.Model Require Import Base GoStrings GoSort ParentsGraph Branches Api.
From Verif.Spec Require Import Text GitLog CommitGraph Selection Refs.

Section Answers.
(** The repository, the name of the branch HEAD is at, and its branches ([remote]: those of origin). *)
Context (R : gitrepo) (dname : bytes) (refs : list ref) (remote : bool) (git : bound -> list bytes -> outcome bytes).
Record branch_answers : Prop := BranchAnswers {
  ba_head : forall x, git x [B "rev-parse"; B "HEAD"] = Ret (g_head R ++ [NL]);
  ba_name : forall x, git x [B "rev-parse"; B "--abbrev-ref"; B "HEAD"] = Ret (dname ++ [NL]);
  ba_symbolic : forall x, git x [B "symbolic-ref"; B "--short"; B "HEAD"] = Ret (dname ++ [NL]);
  (** The graph: one line per commit, in some order. *)
  ba_graph : exists cs, lists_exactly cs (shows R [B "--all"]) /\
    forall x, git x [B "log"; B "-m"; B "--reverse"; B "--no-abbrev-commit"; B "--pretty=format:%H@%P"; B "--all"] =
      Ret (render_graph (map (fun c => (c, parents (g_parents R) c)) cs));
  (** The commits of HEAD's history without parents, in some order. *)
  ba_roots : exists roots, lists_exactly roots (fun x => reaches (g_parents R) (g_head R) x /\ parents (g_parents R) x = []) /\
    forall x, git x [B "rev-list"; B "--max-parents=0"; B "HEAD"] = Ret (unlines roots);
  ba_refs : forall x, git x [B "for-each-ref"; B "--format"; B "%(objectname)@@@%(refname:short)@@@%(committerdate)";
      if remote then B "refs/remotes/origin" else B "refs/heads"] = Ret (render_refs remote refs) }.
(** The commands in question. *)
Definition graph_command : list bytes := [B "log"; B "-m"; B "--reverse"; B "--no-abbrev-commit"; B "--pretty=format:%H@%P"; B "--all"].
Definition branch_commands : list (list bytes) :=
  [[B "rev-parse"; B "HEAD"]; [B "rev-parse"; B "--abbrev-ref"; B "HEAD"]; [B "symbolic-ref"; B "--short"; B "HEAD"]; graph_command;
   [B "rev-list"; B "--max-parents=0"; B "HEAD"];
   [B "for-each-ref"; B "--format"; B "%(objectname)@@@%(refname:short)@@@%(committerdate)"; if remote then B "refs/remotes/origin" else B "refs/heads"]].
End Answers.
(** What is required of the repository. *)
Record branches_usable {T} (parse_date : bytes -> option T) (R : gitrepo) (dname : bytes) (refs : list ref) : Prop := BranchesUsable {
  bu_complete : complete (g_parents R); bu_acyclic : acyclic (g_parents R);
  bu_ids : forall c, is_Some (g_parents R !! c) -> commit_id c;
  bu_lines : forall c, is_Some (g_parents R !! c) -> (N.of_nat (length (graph_line (c, parents (g_parents R) c))) < 1000000)%N;
  bu_head : is_Some (g_parents R !! g_head R) /\ length (g_head R) = 40;
  bu_tips : forall x, x ∈ g_tips R -> is_Some (g_parents R !! x);
  (** HEAD is at a branch, whose name neither starts nor ends with white space (C24). *)
  bu_name : ref_name dname /\ bare dname /\ dname <> B "HEAD";
  (** Names that do not run into the separator (C24); dates can be read. *)
  bu_refs : Forall wf_ref refs /\ NoDup (map rf_name refs);
  bu_dates : forall r, r ∈ refs -> exists t, parse_date (rf_date r) = Some t;
  bu_commits : forall r, r ∈ refs -> rf_commit r ∈ g_tips R }.

(** The record of a branch or pull request with head [b], for the default branch's head [d]. *)
Section Right.
Context (sha : bytes -> bytes) (g : graph) (d : bytes) (r : branch).
Let b : bytes := br_head r.
(** [x] is where the branch left the default branch: a parent of one of its commits that [d] has without the branch. *)
Definition left_at (x : bytes) : Prop := reaches_avoiding g (fun y => y = b) d x /\ exists c, c ∈ br_commits r /\ parent g c x.
Record branch_right : Prop := BranchRight {
  bt_unmerged : ~ reaches g d b -> lists_exactly (br_commits r) (fun x => reaches g b x /\ ~ reaches g d x);
  bt_merged : reaches g d b -> lists_exactly (br_commits r) (fun x => x = b \/ (ancestor g b x /\ ~ reaches_avoiding g (fun y => y = b) d x));
  bt_last : last (br_commits r) = Some b;
  bt_first : head (br_commits r) = Some (br_first r);
  bt_ahead : br_ahead r = length (br_commits r);
  bt_is_merged : br_merged r = true <-> reaches g d b;
  bt_from : StronglySorted bytes_le (br_from r) /\ lists_exactly (br_from r) (fun x => left_at x /\ ~ exists y, left_at y /\ ancestor g x y);
  bt_no_merge_commit : br_merged r = false -> br_merge_commit r = [];
  bt_merge_commit : br_merged r = true -> b <> d -> parent g (br_merge_commit r) b /\ reaches g d (br_merge_commit r) /\
    forall c, parent g c b -> reaches g d c -> bytes_le (br_merge_commit r) c;
  bt_not_behind : reaches g d b \/ br_from r = [] -> br_behind r = 0;
  bt_behind : ~ reaches g d b -> (exists x, reaches g b x /\ reaches g d x) -> (forall x, reaches g d x -> length (parents g x) <= 1) ->
    exists missing, lists_exactly missing (fun x => reaches g d x /\ ~ reaches g b x) /\ br_behind r = length missing;
  bt_pr : br_pr r = true <-> br_name r = [];
  bt_id : br_id r = if decide (br_name r = []) then [] else sha (br_name r ++ match br_from r with x :: _ => x | [] => [] end);
  bt_not_default : br_default r = false }.
End Right.
