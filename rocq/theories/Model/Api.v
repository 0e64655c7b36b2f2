(** * A call of Code, from the answers of git

    Models /repo/ripsrc/code.go:93-181 (CodeByCommit up to the run over the patches) with the commands it runs: which arguments git gets,
    which context each command is bound to, and the temporary files that are made for it.  The goroutines from there on are those of
    Model/Pipeline.v.  A new object is meant (for later calls on it see Model/Session.v).

    Simplifications: a command either works and prints its whole output, or fails; when a command whose output is piped fails, the
    goroutine that runs it panics and the program ends (see Model/GitPipe.v for what happens before that). *)
From Verif.Model Require Import Base GoStrings IncBlame LogParser ParentsGraph Process Msgp Checkpoint CheckpointFS CommitMeta FileInfo CodeInfo Net Pipeline GitBlame LogArgs.

(** The context a command is bound to: none (exec.Command), context.Background(), or the one the caller passed. *)
Inductive bound := NoContext | Background | CallersContext.

(** /repo/ripsrc/parentsgraph/parents.go:86-97 *)
Definition graph_log_args (o : ropts) : list bytes :=
  [B "log"; B "-m"; B "--reverse"; B "--no-abbrev-commit"; B "--pretty=format:%H@%P"] ++ graph_revs o.
(** /repo/ripsrc/commitmeta/commitmeta.go:186-213; [f]: name of the empty attributes file. *)
Definition metadata_log_args (f : bytes) (o : ropts) : list bytes :=
  [B "-c"; B "core.attributesFile=" ++ f; B "-c"; B "diff.renameLimit=10000"; B "log"; B "-c"; B "--raw"; B "--reverse"; B "--numstat";
   B "--pretty=format:!SHA: %H%n!Parents: %P%n!Committer: %ce%n!CName: %cn%n!Author: %ae%n!AName: %an%n!Date: %aI%n!Message: %s%n"]
  ++ metadata_revs o.
(** /repo/ripsrc/history3/process/process.go:807-836 *)
Definition patch_log_args (f : bytes) (o : ropts) : list bytes :=
  [B "-c"; B "core.attributesFile=" ++ f; B "-c"; B "diff.renameLimit=10000"; B "log"; B "-p"; B "-m"; B "--date-order"; B "--reverse";
   B "--no-abbrev-commit"; B "--pretty=short"] ++ patch_revs o.
(** /repo/ripsrc/gitblame2/gitblame.go:31-38 *)
Definition blame_args (commit file : bytes) : list bytes := [B "blame"; commit; B "--porcelain"; B "--"; file].

Section Api.
Context {T L : Type} (zero_time : T) (parse_date : bytes -> option T) (cl : classifiers L).
Context (count : bytes -> bytes -> bytes -> list (Z * line_type) * totals).
Context (orders : nat -> list (bytes * blame) -> list (bytes * blame)) (graph_order : graph -> list (bytes * list bytes)) (merge_orders : bytes -> Process.orders).
Context (skip : bytes -> pres unit) (disk : fs) (write_err : option bytes).
(** [git ctx args]: what a command prints; [tmp n]: the name of the [n]-th temporary file of the call. *)
Context (git : bound -> list bytes -> outcome bytes) (tmp : nat -> outcome bytes).
Context (repo_dir : bytes) (o : ropts).

(** /repo/ripsrc/gitexec/gitexec.go:112-123 (headCommit): the context is not used, and neither is the error. *)
Definition head_id : bytes :=
  match git NoContext [B "rev-parse"; B "HEAD"] with
  | Ret out => let res := trim_space out in if bool_decide (length res <> 40) then [] else res
  | Err _ | Panic _ => []
  end.
(** /repo/ripsrc/gitexec/prepare.go:16-40, /repo/ripsrc/ripsrc.go:85-90 *)
Definition prepare : outcome unit :=
  if bool_decide (head_id = []) then Err (B "can't get head commit for repo: " ++ repo_dir) else Ret tt.
(** gitexec.go:125-138 (ExecPiped) *)
Definition exec_piped (ctx : bound) (args : list bytes) : outcome bytes :=
  match git ctx args with Ret out => Ret out | Err x | Panic x => Panic (B "failed executing git command " ++ x) end.
(** ripsrc.go:92-104, parents.go:69-101: the context is not passed on. *)
Definition read_graph : outcome (graph * graph) :=
  do out <- exec_piped Background (graph_log_args o); graph_read graph_order out.
(** /repo/ripsrc/commit_info.go:9-22, commitmeta.go:118-133,175-215: the context is not passed on. *)
Definition commit_info : outcome (gmap bytes (mcommit T)) :=
  do f <- tmp 0;
  do out <- exec_piped Background (metadata_log_args f o);
  let r := run_map zero_time parse_date out in
  do _ <- r.2; Ret r.1.
(** process.go:796-844 (gitLogPatches): the context is not passed on. *)
Definition patch_log : outcome bytes := do f <- tmp 1; exec_piped Background (patch_log_args f o).

(** What the goroutines of the call work on: Model/Pipeline.v. *)
Record setup := Setup { su_graph : graph * graph; su_meta : gmap bytes (mcommit T); su_text : bytes; su_prep_err : option bytes; su_log_err : option bytes }.
(** code.go:97-141, process.go:138-159.  [Panic]: the program ends. *)
Definition code_setup : outcome setup :=
  match (do _ <- prepare; do g <- read_graph; do m <- commit_info; Ret (g, m)) with
  | Ret (g, m) => match patch_log with
                  | Ret text => Ret (Setup g m text None None)
                  | Err x => Ret (Setup g m [] None (Some x))
                  | Panic x => Panic x
                  end
  | Err x => Ret (Setup (∅, ∅) ∅ [] (Some x) None)
  | Panic x => Panic x
  end.
(** The blame process.go:765-779 falls back on. *)
Definition fallback : bytes -> bytes -> outcome blame := slow_git_blame (fun c f => git NoContext (blame_args c f)).
Definition api_env (g : graph * graph) : env := Env g.1 g.2 fallback merge_orders.
(** The goroutines of Code. *)
Definition api_act (s : setup) : local -> action chan value local :=
  act zero_time cl count (su_meta s) orders ∅ skip (api_env (su_graph s)) (process_opts o) disk (su_text s) (su_prep_err s) (su_log_err s) write_err.

(** The temporary files the call makes (commitmeta.go:177-185, process.go:797-805); nothing in the code removes one. *)
Definition made (n : nat) : list bytes := match tmp n with Ret f => [f] | _ => [] end.
Definition temp_files : list bytes :=
  match (do _ <- prepare; read_graph) with
  | Ret _ => made 0 ++ match commit_info with Ret _ => made 1 | _ => [] end
  | _ => []
  end.
End Api.
Arguments setup T : clear implicits.
