(** * A call of CodeByCommit, from the answers of git

    Models /repo/ripsrc/code.go:93-192: the same setup as in Model/Api.v (Code is a loop around CodeByCommit, code.go:63-86), and then the
    goroutines of Model/Callers.v with a caller that reads [want n c] records of the [n]-th commit [c] and stops after [quit] commits, or with one that
    starts a goroutine for each commit.
    Simplifications: those of Model/Api.v and Model/Callers.v. *)
From Verif.Model Require Import Base GoStrings IncBlame LogParser ParentsGraph Process Msgp Checkpoint CheckpointFS CommitMeta FileInfo CodeInfo Net Pipeline GitBlame LogArgs Api Callers.

Section ByCommit.
Context {T L : Type} (zero_time : T) (cl : classifiers L).
Context (count : bytes -> bytes -> bytes -> list (Z * line_type) * totals).
Context (orders : nat -> list (bytes * blame) -> list (bytes * blame)) (merge_orders : bytes -> Process.orders).
Context (skip : bytes -> pres unit) (disk : fs) (write_err : option bytes).
Context (git : bound -> list bytes -> outcome bytes) (o : ropts).
(** code.go:93-192: the goroutines. *)
Definition api_by_commit_act (s : setup T) (want : nat -> mcommit T -> option nat) (quit : option nat) : clocal -> action chan value clocal :=
  by_commit_act zero_time cl count (su_meta s) orders ∅ skip (api_env merge_orders git (su_graph s)) (process_opts o) disk (su_text s)
    (su_prep_err s) (su_log_err s) write_err want quit 0.
(** code.go:93-141: how the call begins. *)
Definition api_by_commit_call (s : setup T) (quit : option nat) : config chan (@clocal T L) := by_commit_call (su_prep_err s) quit.
(** The same with a caller that starts a goroutine for each commit. *)
Definition api_readers_act (s : setup T) : clocal -> action chan value clocal :=
  readers_act zero_time cl count (su_meta s) orders ∅ skip (api_env merge_orders git (su_graph s)) (process_opts o) disk (su_text s)
    (su_prep_err s) (su_log_err s) write_err.
Definition api_readers_call (s : setup T) (k : nat) : config chan (@clocal T L) := readers_call (su_prep_err s) k.
End ByCommit.
