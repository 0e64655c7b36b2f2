(** * The commits a call of Code or Branches asks git for

    /repo/ripsrc/ripsrc.go, /repo/ripsrc/code.go, /repo/ripsrc/commit_info.go, /repo/ripsrc/parentsgraph/parents.go *)
From Verif.Model Require Import Base GoStrings IncBlame Process Msgp Checkpoint CheckpointFS CommitMeta.

(** The options of /repo/ripsrc/ripsrc.go:16-55 used here. *)
Record ropts := ROpts { ro_from : bytes; ro_nonincl : bool; ro_nostrict : bool; ro_all : bool }.

(** /repo/ripsrc/code.go:109-139: what fills wantedBranchRefs is commented out. *)
Definition wanted_refs (o : ropts) : list bytes := [].
(** /repo/ripsrc/code.go:171-181: options of the run over the patches; process.go:819-836. *)
Definition process_opts (o : ropts) : popts := POpts (ro_from o) (ro_nostrict o) (ro_nonincl o) (ro_all o) (wanted_refs o).
Definition patch_revs (o : ropts) : list bytes := log_revs (process_opts o).
(** /repo/ripsrc/commit_info.go:9-16, commitmeta.go:197-213. *)
Definition metadata_revs (o : ropts) : list bytes := meta_args (ro_from o) (ro_nonincl o) (ro_all o) (wanted_refs o).
(** /repo/ripsrc/ripsrc.go:92-104, /repo/ripsrc/parentsgraph/parents.go:95-97. *)
Definition graph_revs (o : ropts) : list bytes := if ro_all o then [B "--all"] else [].
