(** * Commands of git that fail *)
From Verif.Model Require Import Base GoStrings IncBlame LogParser ParentsGraph Process Msgp Checkpoint CheckpointFS CommitMeta FileInfo CodeInfo Net Pipeline Api.
From Verif.Spec Require Import Delivery.

(** [git'] is [git], except that commands may fail. *)
Definition may_fail (git git' : bound -> list bytes -> outcome bytes) : Prop := forall x args, git' x args = git x args \/ exists e, git' x args = Err e.
Definition fails (git : bound -> list bytes -> outcome bytes) (args : list bytes) : Prop := forall x, exists e, git x args = Err e.

(** In every schedule the call [act] ends; the caller receives a part of [all] from its beginning, and all of it if the call returns without an
    error.  The program may end with a panic instead. *)
Definition never_silent {T L} (act : @local T L -> action chan (@value T L) (@local T L)) (all : list (bresult T L)) : Prop :=
  (exists n, forall m c, nsteps (step act) m code_call c -> m <= n) /\
  forall c, rtc (step act) code_call c ->
    received c `prefix_of` all /\
    (forall w, returned c = Some (Ret tt, w) -> c_res ∈ closed c -> received c = all) /\
    (final act c -> crashing act c \/
      (all_ended c /\ c_res ∈ closed c /\ exists r w, returned c = Some (r, w) /\ (r = Ret tt /\ received c = all \/ exists e, r = Err e))).
