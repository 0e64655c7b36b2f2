(** * How large a commit graph is *)
From Verif.Model Require Import Base ParentsGraph.

(** The number of links from a commit to a parent. *)
Definition links (g : graph) : nat := sum_list (map (fun e : bytes * list bytes => length e.2) (map_to_list g)).

(** A history of [n] merges: top (i+1) merges left (i+1) and right (i+1), which both branched off top i; top 0 is the first commit. *)
Definition letters (k : nat) : bytes := replicate k "a"%char.
Definition top (i : nat) : bytes := "t"%char :: letters (2 * i).
Definition left_of (i : nat) : bytes := "l"%char :: letters (2 * i + 1).
Definition right_of (i : nat) : bytes := "r"%char :: letters (2 * i + 1).
Fixpoint merges (n : nat) : graph :=
  match n with
  | 0 => {[ top 0 := [] ]}
  | S i => <[ top (S i) := [left_of i; right_of i] ]> (<[ left_of i := [top i] ]> (<[ right_of i := [top i] ]> (merges i)))
  end.
