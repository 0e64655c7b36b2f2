(** * What the command code should print *)
From Verif.Model Require Import Base GoStrings IncBlame ParentsGraph Process CommitMeta FileInfo CodeInfo Commands CodeCommand.

(** A line shows what is in the record, but for the number of blank lines. *)
Definition shows_record {T L} (dir : bytes) (r : bresult T L) (l : rline L) : Prop :=
  ln_repo l = dir /\ (exists rest, mc_sha (br_commit r) = ln_sha l ++ rest) /\ length (ln_sha l) = 8 /\ ln_file l = br_filename r /\ ln_language l = br_language r /\ ln_license l = br_license r /\
  ln_skipped l = br_skipped r /\ ln_status l = br_status r /\
  (mc_author_name (br_commit r) <> [] -> ln_author l = mc_author_name (br_commit r)) /\ (mc_author_name (br_commit r) = [] -> ln_author l = mc_author_email (br_commit r)) /\
  (exists blanks, ln_numbers l = [(B "loc", t_lines (br_totals r)); (B "sloc", t_code (br_totals r)); (B "comments", t_comment (br_totals r));
     (B "blanks", blanks); (B "complexity", t_complexity (br_totals r))]).
(** A commit is followed by one line for each of its records, in order. *)
Definition shows_commit {T L} (dir : bytes) (y : mcommit T * list (bresult T L)) (its : list (item T L)) : Prop :=
  exists ls, its = ICommit (mc_sha y.1) (mc_date y.1) :: map IRecord ls /\ Forall2 (shows_record dir) y.2 ls.
(** Commit after commit, then the number of records, unless there was an error. *)
Definition shows_repo {T L} (dir : bytes) (ys : list (mcommit T * list (bresult T L))) (err : option bytes) (its : list (item T L)) : Prop :=
  exists pieces, its = concat pieces ++ (if err then [] else [IProcessed (length (concat (map snd ys)))]) /\ Forall2 (shows_commit dir) ys pieces.
(** What was printed for a repository, also if the program then ended. *)
Definition printed_of {A} (e : repo_end A) : list A := match e with Done it _ _ | Crashed it => it end.

(** A repository the command can work on: as in C77, ids of 8 digits or more, [git rev-parse HEAD] prints the head's id, and the temporary files can be made. *)
From Verif.Model Require Import GitRepos Msgp Checkpoint CheckpointFS Net Pipeline LogArgs Api Callers ApiByCommit.
From Verif.Spec Require Import Text UnifiedDiff Attribution GitLog CommitGraph History Processing Records MetaLog EndToEnd Selection GitAnswers Callers ByCommit.
Record ready {T} (k : nat) (parse_date : bytes -> option T) (R : gitrepo) (H : history) (about : bytes -> meta_entry T) (head : bytes) (x : place) : Prop := Ready {
  rd_usable : usable k parse_date R H about;
  rd_answers : answers R H about (pl_git x) [] [];
  rd_ids : forall c, is_Some (g_parents R !! c) -> 8 <= length c;
  rd_head : head = g_head R ++ [NL];
  rd_tmp : exists f0 f1, pl_tmp x 0 = Ret f0 /\ pl_tmp x 1 = Ret f1 }.

(** In every schedule of the work on the repository, commits [ys] are received which are right; then the command has printed [it], which shows them, and goes on;
    the only error [err] there may be is that of writing the checkpoint. *)
Definition repo_right {T L} (zt : T) parse_date (cl : classifiers L) count orders graph_order merge_orders skip (x : place) (H : history) (about : bytes -> meta_entry T)
    (sha : bytes) (cs : list bytes) (line_ok : line -> bline T -> Prop) (ys : list (mcommit T * list (bresult T L))) (it : list (item T L)) (err : option bytes) : Prop :=
  Forall2 (commit_delivered H (fallback (pl_git x)) line_ok about) cs ys /\ shows_repo (pl_dir x) ys err it /\
  (exists s w, code_setup zt parse_date graph_order (pl_git x) (pl_tmp x) (pl_dir x) (code_command_opts sha) = Ret s /\
     delivers_commits (place_act zt cl count orders merge_orders skip sha s x) (api_by_commit_call s None) (pl_write_err x) ys w /\
     err = match w with Some _ => pl_write_err x | None => None end) /\
  forall e, may_end zt parse_date cl count orders graph_order merge_orders skip sha x e <-> e = Done it (length (concat (map snd ys))) err.
