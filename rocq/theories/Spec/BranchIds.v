(** * How a repository grows, as far as the identifier of a branch is concerned

    [g], [d], [b]: the commits, the head of the default branch and the head of the branch before; [g'], [d'], [b']: after. *)
From Verif.Model Require Import Base ParentsGraph.
From Verif.Spec Require Import CommitGraph.

(** No commit changed its parents or was lost. *)
Definition history_grew (g g' : graph) : Prop := forall c ps, g !! c = Some ps -> g' !! c = Some ps.
(** What the default branch has without the branch. *)
Definition default_has (g : graph) (d b : bytes) : bytes -> Prop := reaches_avoiding g (fun y => y = b) d.
(** The commits of the branch. *)
Definition on_branch (g : graph) (d b c : bytes) : Prop := c = b \/ (ancestor g b c /\ ~ default_has g d b c).
(** Where the branch left the default branch. *)
Definition leaves_at (g : graph) (d b x : bytes) : Prop := default_has g d b x /\ exists c, on_branch g d b c /\ parent g c x.

Record branch_grew (g : graph) (d b : bytes) (g' : graph) (d' b' : bytes) : Prop := BranchGrew {
  bg_history : history_grew g g';
  (** commits were only added to the branch, *)
  bg_branch : reaches g' b' b;
  (** and to the default branch, which has its old commits without the help of the branch (it was not moved to the
      head of the branch), *)
  bg_default : default_has g' d' b' d;
  (** the default branch took commits of the branch only by merging the branch's last commit, *)
  bg_parts : forall c, on_branch g d b c -> c <> b' -> ~ default_has g' d' b' c;
  (** and what the new commits of the branch took from the default branch has a place where the branch left before. *)
  bg_taken : forall c x, on_branch g' d' b' c -> ~ on_branch g d b c -> parent g' c x -> default_has g' d' b' x ->
    exists y, leaves_at g d b y /\ reaches g' x y }.

(** No two texts have the same checksum. *)
Definition no_collisions (sha : bytes -> bytes) : Prop := forall s t, sha s = sha t -> s = t.
(** All commit hashes have the same length [n]. *)
Definition hashes_of_length (n : nat) (g : graph) : Prop := forall c ps, g !! c = Some ps -> length c = n.
