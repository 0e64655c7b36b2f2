(** * Incremental runs over a growing history *)
From Verif.Model Require Import Base GoStrings IncBlame LogParser ParentsGraph Process Msgp Checkpoint.
From Verif.Spec Require Import Text UnifiedDiff Attribution GitLog CommitGraph History Processing Checkpoint.

(** [H1] is an earlier state of the repository [H]: the commits it has are the same in [H]. *)
Definition extends (H1 H : history) : Prop :=
  forall c, is_Some (hi_parents H1 !! c) ->
    hi_parents H !! c = hi_parents H1 !! c /\ hi_tree H c = hi_tree H1 c /\
    hi_diff H c = hi_diff H1 c /\ hi_meta H c = hi_meta H1 c.

(** The situation of one run, as in [run_ready] but without what the state must contain. *)
Record run_given (H : history) (slow : bytes -> bytes -> outcome blame) (k : nat) (e : env) (before cs : list bytes) : Prop := RunGiven {
  rg_valid : valid_history k H; rg_context : 2 <= k; rg_slow : slow_blame_right H slow; rg_acyclic : acyclic (hi_parents H);
  rg_env : env_right H slow e; rg_order : parents_first H before cs;
  rg_commits : forall c, c ∈ cs -> is_Some (hi_parents H !! c) /\ plain_merge H c }.

(** The checkpoint that [P] is read back as. *)
Definition saved_as (hash : bytes -> N) (skip : bytes -> pres unit) (P P' : prepo) : Prop :=
  exists o1 o2 w, any_perm o1 /\ (forall c, any_perm (o2 c)) /\ write_records hash P o1 o2 = Ret w /\ read_files skip (encode_files w) = Ret P'.

(** A series of runs, each over the history as it is at that time: the first from nothing, each later one from the checkpoint
    of the one before, listing any commits [cs] whose unlisted parents [before] are in that checkpoint.  Of each run: the
    listed commits and the emitted results. *)
Inductive runs (hash : bytes -> N) (skip : bytes -> pres unit) (H : history) slow k : repo -> list (list bytes * list result) -> Prop :=
| runs_first H1 e cs s :
    extends H1 H -> run_given H1 slow k e [] cs ->
    process_log e (pst_init ∅) (map commit_of (git_log H1 cs)) = (s, Ret tt) ->
    runs hash skip H slow k (s_repo s) [(cs, s_out s)]
| runs_next r outs P P' H1 e before cs s :
    runs hash skip H slow k r outs ->
    values P = r -> sound P -> encodable hash P -> no_collision hash P -> saved_as hash skip P P' ->
    extends H1 H -> run_given H1 slow k e before cs -> (forall p, p ∈ before -> is_Some (values P' !! p)) ->
    process_log e (pst_init (values P')) (map commit_of (git_log H1 cs)) = (s, Ret tt) ->
    runs hash skip H slow k (s_repo s) (outs ++ [(cs, s_out s)]).
