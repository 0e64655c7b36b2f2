(** * parentsgraph: reading the commit graph

    /repo/ripsrc/parentsgraph/parentsp/parser.go, /repo/ripsrc/parentsgraph/parents.go *)
From Verif.Model Require Import Base GoStrings GoSort.

(** The Go maps [Parents] and [Children] (parents.go:14-18). *)
Notation graph := (gmap bytes (list bytes)).

(** parentsp/parser.go:22-23 *)
Definition parents_max_line : N := 1000000%N.

(** parentsp/parser.go:31-39: one line.  [parts[1]] of a line without "@" is a run-time panic; text after a
    second "@" is ignored, as [bytes.Split] puts it into [parts[2]]. *)
Definition pp_line (m : graph) (line : bytes) : outcome graph :=
  match split_char AT line with
  | c :: ps :: _ => Ret (<[ c := match ps with [] => [] | _ => split_char SP ps end ]> m)
  | _ => Panic (B "index out of range")
  end.

(** parentsp/parser.go:25-45 (Run).  On a scanner error Go returns the partial map together with the error;
    the only caller (parents.go:77-80) discards the map. *)
Definition pp_run (input : bytes) : outcome graph :=
  let '(ts, e) := scan parents_max_line input in
  do m <- ofold pp_line ∅ ts;
  if e then Err (B "bufio.Scanner: token too long") else Ret m.

(** parents.go:55-63: the body of the first loop for one map entry. *)
Definition add_entry (ch : graph) (e : bytes * list bytes) : graph :=
  let ch1 := match ch !! e.1 with Some _ => ch | None => <[ e.1 := [] ]> ch end in
  foldl (fun m p => <[ p := default [] (m !! p) ++ [e.1] ]> m) ch1 e.2.

(** parents.go:53-67 (childrenFromParents).  [entries] are the entries of [s.Parents] in the order in which
    Go's runtime happens to iterate the map: any permutation of them. *)
Definition children_from_parents (entries : list (bytes * list bytes)) : graph :=
  sort_strings <$> foldl add_entry ∅ entries.

(** parents.go:39-51,69-84 (Read/retrieveParents) on the output of [git log]; a failure to start git (gitexec)
    is not modelled.  [ord] is the iteration order of the parents map. *)
Definition graph_read (ord : graph -> list (bytes * list bytes)) (input : bytes) : outcome (graph * graph) :=
  do ps <- pp_run input; Ret (ps, children_from_parents (ord ps)).
