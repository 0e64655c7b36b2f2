(** * Two calls on one repository

    What may differ between two calls of Code on the same repository with the same options: the orders in which the runtime visits the
    entries of maps, and the schedule.  What must not: the records of each commit. *)
From Verif.Model Require Import Base GoStrings IncBlame LogParser ParentsGraph Process CommitMeta FileInfo CodeInfo.
From Verif.Spec Require Import Text Processing.

(** The same commit graph and the same answers of git blame; any iteration orders. *)
Definition same_but_orders (e1 e2 : env) : Prop :=
  e_parents e1 = e_parents e2 /\ e_children e1 = e_children e2 /\ e_slow e1 = e_slow e2 /\
  (forall c, any_orders (e_orders e1 c)) /\ (forall c, any_orders (e_orders e2 c)).

(** In the log [cs] each part of a merge is a comparison with one of its parents, and no merge both removes and writes one path (as git
    shows a file that becomes, for instance, a symbolic link). *)
Definition steady_merges (e : env) (cs : list lcommit) : Prop :=
  forall c, c ∈ cs -> 1 < length (env_parents e (lc_hash c)) ->
    NoDup (env_parents e (lc_hash c)) /\ lc_hash c ∉ env_parents e (lc_hash c) /\
    (lc_changes c <> [] -> lc_from c ∈ env_parents e (lc_hash c)) /\
    forall c' ch d ch' d', c' ∈ cs -> lc_hash c' = lc_hash c -> ch ∈ lc_changes c -> parse ch = Ret d -> ch' ∈ lc_changes c' -> parse ch' = Ret d' ->
      d_path d = [] -> d_path d' <> [] -> d_prev d <> d_path d'.

(** The same records commit by commit, in any order within a commit. *)
Definition same_by_commit {T L} (g1 g2 : list (bresult T L)) : Prop :=
  exists xs1 xs2, g1 = concat xs1 /\ g2 = concat xs2 /\
    Forall2 (fun x1 x2 => x1 ≡ₚ x2 /\ exists c, forall r, r ∈ x1 -> br_commit r = c) xs1 xs2.
