(** * history3/process/graph: the last common parent of several heads

    /repo/ripsrc/history3/process/graph/graph.go *)
From Verif.Model Require Import Base GoStrings ParentsGraph.

(** graph.go:7-10 *)
Definition trace := (nat * bytes)%type.

(** graph.go:18-29 (markReach); the second component is [done]. *)
Definition mark_reach (n : nat) (reached : gmap bytes (gset nat)) (tr : trace) : gmap bytes (gset nat) * bool :=
  let s := {[ tr.1 ]} ∪ default ∅ (reached !! tr.2) in
  (<[ tr.2 := s ]> reached, bool_decide (size s = n)).

(** graph.go:31-41: one level; [inl] is the early return. *)
Fixpoint lcp_level (g : graph) (n : nat) (reached : gmap bytes (gset nat)) (curr ntr : list trace)
  : bytes + (gmap bytes (gset nat) * list trace) :=
  match curr with
  | [] => inr (reached, ntr)
  | tr :: r =>
      let '(reached', dn) := mark_reach n reached tr in
      if dn then inl tr.2
      else lcp_level g n reached' r (ntr ++ map (pair tr.1) (default [] (g !! tr.2)))
  end.

(** graph.go:30-46: the loop over levels.  Go's loop is unbounded; [fuel] bounds the levels, and running out of it stands
    for a run that is still going on. *)
Fixpoint lcp_loop (fuel : nat) (g : graph) (n : nat) (reached : gmap bytes (gset nat)) (curr : list trace) : outcome bytes :=
  match fuel with
  | 0 => Panic (B "still running")
  | S f => match lcp_level g n reached curr [] with
           | inl c => Ret c
           | inr (_, []) => Panic (B "all roots reached")
           | inr (reached', ntr) => lcp_loop f g n reached' ntr
           end
  end.

(** graph.go:12-47 (LastCommonParent), run for [fuel] levels. *)
Definition last_common_parent (fuel : nat) (g : graph) (heads : list bytes) : outcome bytes :=
  lcp_loop fuel g (length heads) ∅ (imap pair heads).
