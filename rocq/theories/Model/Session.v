(** * Several calls on one object

    /repo/ripsrc/ripsrc.go *)
From Verif.Model Require Import Base GoStrings ParentsGraph.

(** /repo/ripsrc/ripsrc.go:58-70 (type Ripsrc): what a call leaves behind for the next one and is not written again by it.  commitMeta is
    overwritten by every call (commit_info.go:20), gitExecPrepared is never set, the timings are only reported. *)
Record ripsrc := Ripsrc { rs_graph : option (graph * graph) }.
(** ripsrc.go:72-83 *)
Definition new_ripsrc : ripsrc := Ripsrc None.
(** ripsrc.go:92-104 (buildCommitGraph).  [out]: what git log prints now; [ord]: iteration order of the parents' map.  The field is set before
    the log is read, so after an error it holds a graph with nil maps. *)
Definition build_commit_graph (s : ripsrc) (ord : graph -> list (bytes * list bytes)) (out : bytes) : ripsrc * outcome (graph * graph) :=
  match rs_graph s with
  | Some g => (s, Ret g)
  | None => match graph_read ord out with
            | Ret g => (Ripsrc (Some g), Ret g)
            | Err m => (Ripsrc (Some (∅, ∅)), Err m)
            | Panic m => (Ripsrc (Some (∅, ∅)), Panic m)
            end
  end.
(** Calls of Code, CodeByCommit, CodeSlice, Branches or BranchesSlice, one after the other; each begins with buildCommitGraph
    (code.go:104-107, branches.go:24-27). *)
Definition calls_on (s : ripsrc) (calls : list ((graph -> list (bytes * list bytes)) * bytes)) : ripsrc :=
  foldl (fun s c => (build_commit_graph s c.1 c.2).1) s calls.
