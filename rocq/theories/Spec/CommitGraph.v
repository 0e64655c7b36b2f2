(** * Commit graphs, independently of the model

    Parent edges, reachability, and the text [git log --pretty=format:%H@%P] prints. *)
From Verif.Model Require Import Base GoStrings ParentsGraph.
From Verif.Spec Require Import Text GitLog.

(** ** The printed graph: one line "id@parent parent ..." per commit, separated (not terminated) by newlines *)
Definition graph_line (e : bytes * list bytes) : bytes := e.1 ++ [AT] ++ join [SP] e.2.
Definition render_graph (h : list (bytes * list bytes)) : bytes := join [NL] (map graph_line h).
Definition wf_history (h : list (bytes * list bytes)) : Prop :=
  Forall (fun e => commit_id e.1 /\ Forall commit_id e.2) h /\ NoDup h.*1.

(** ** Reachability *)
Definition parents (g : graph) (c : bytes) : list bytes := default [] (g !! c).
Definition parent (g : graph) (c p : bytes) : Prop := p ∈ parents g c.
(** [x] is [c] or one of its ancestors. *)
Definition reaches (g : graph) : bytes -> bytes -> Prop := rtc (parent g).
(** [x] is a proper ancestor of [c]. *)
Definition ancestor (g : graph) : bytes -> bytes -> Prop := tc (parent g).
Definition acyclic (g : graph) : Prop := forall c, ~ ancestor g c c.
(** Reachable along a path none of whose commits before the last one satisfies [P]. *)
Definition reaches_avoiding (g : graph) (P : bytes -> Prop) : bytes -> bytes -> Prop :=
  rtc (fun x y => parent g x y /\ ~ P x).
(** Every commit reachable from [c] is in the graph. *)
Definition closed_from (g : graph) (c : bytes) : Prop := forall x, reaches g c x -> is_Some (g !! x).
(** The list holds exactly the elements satisfying [P], each once. *)
Definition lists_exactly (l : list bytes) (P : bytes -> Prop) : Prop := NoDup l /\ forall x, x ∈ l <-> P x.
(** How often [x] occurs in the list. *)
Definition times (x : bytes) (l : list bytes) : nat := length (filter (fun y => y = x) l).

(** Every listed parent is itself in the graph. *)
Definition complete (g : graph) : Prop := forall x y, parent g x y -> is_Some (g !! y).
