(** * What a run over a history promises *)
From Verif.Model Require Import Base IncBlame LogParser ParentsGraph Process Timing.
From Verif.Spec Require Import Text UnifiedDiff Attribution GitLog CommitGraph History.

(** The runtime may iterate a map in any order. *)
Definition any_perm {A} (o : list A -> list A) : Prop := forall l, o l ≡ₚ l.
Definition any_orders (o : orders) : Prop := any_perm (o_parts o) /\ any_perm (o_files o) /\ any_perm (o_rest o).

(** The run is given the history's own graph. *)
Definition env_right (H : history) (slow : bytes -> bytes -> outcome blame) (e : env) : Prop :=
  e_parents e = hi_parents H /\
  (exists es, es ≡ₚ map_to_list (hi_parents H) /\ e_children e = children_from_parents es) /\
  e_slow e = slow /\ forall c, any_orders (e_orders e c).

(** The paths the patches of a commit write or delete. *)
Definition touched (ps : list fpatch) (f : bytes) : Prop := exists p, p ∈ ps /\ (writes p f \/ deletes p f).

Section promises.
  Context (H : history) (slow : bytes -> bytes -> outcome blame).

  (** The stored files of commit [x] include correct blame for each file of its tree. *)
  Definition good_files (x : bytes) (fs : gmap bytes blame) : Prop :=
    forall f, is_Some (hi_tree H x !! f) -> exists b, fs !! f = Some b /\ blame_of H slow x f b.
  Definition good (r : repo) (x : bytes) : Prop := exists fs, r !! x = Some fs /\ good_files x fs.

  (** The result of a commit with at most one parent: the paths its patches touch; blame for those written, an empty
      blame for those deleted. *)
  Definition result_right (c : bytes) (ps : list fpatch) (res : result) : Prop :=
    r_commit res = c /\
    (forall f, is_Some (r_files res !! f) <-> touched ps f) /\
    (forall f b, r_files res !! f = Some b -> (exists p, p ∈ ps /\ writes p f) -> blame_of H slow c f b) /\
    (forall f b, r_files res !! f = Some b -> (forall p, p ∈ ps -> ~ writes p f) -> b_lines b = [] /\ b_commit b = c).

  (** The result of a merge: blame for each path that differs from all parents; of the others none but binary files; an
      empty blame for each deleted path. *)
  Definition merge_result_right (c : bytes) (res : result) : Prop :=
    r_commit res = c /\
    (forall f, is_Some (hi_tree H c !! f) ->
       (forall b, r_files res !! f = Some b -> blame_of H slow c f b) /\
       ((forall p, p ∈ hparents H c -> hi_tree H p !! f <> hi_tree H c !! f) -> is_Some (r_files res !! f)) /\
       (forall p b, p ∈ hparents H c -> hi_tree H p !! f = hi_tree H c !! f -> r_files res !! f = Some b -> b_binary b = true)) /\
    (forall f, hi_tree H c !! f = None ->
       (is_Some (r_files res !! f) <-> exists p q, p ∈ hparents H c /\ q ∈ hi_diff H c p /\ deletes q f) /\
       (forall b, r_files res !! f = Some b -> b = Blame c [] false)).

  (** What is stored for a merge ([r]: the state before it): a reported file as reported, any other file of its tree as it
      is stored for a parent that has the same file. *)
  Definition merge_stored_right (c : bytes) (r : repo) (fs : gmap bytes blame) (res : result) : Prop :=
    forall f, is_Some (hi_tree H c !! f) ->
      match r_files res !! f with
      | Some b => fs !! f = Some b
      | None => exists p, p ∈ hparents H c /\ hi_tree H p !! f = hi_tree H c !! f /\
                  fs !! f = (r !! p ≫= fun fsp : gmap bytes blame => fsp !! f) /\ is_Some (fs !! f)
      end.

  Definition commit_right (c : bytes) (res : result) : Prop :=
    if decide (1 < length (hparents H c)) then merge_result_right c res else result_right c (patches_of H c) res.

  (** The log entries of a merge, by parent: for each parent with differences the printed patches. *)
  Definition parts_ok (c : bytes) (parts : gmap bytes lcommit) : Prop :=
    (forall par lc, parts !! par = Some lc ->
       (par ∈ hparents H c /\ lc_changes lc = map change_text (hi_diff H c par)) \/ lc_changes lc = []) /\
    (forall p, p ∈ hparents H c -> hi_diff H c p <> [] -> is_Some (parts !! p) /\
       forall lc, parts !! p = Some lc -> lc_changes lc = map change_text (hi_diff H c p)).

  (** No path of the merge starts with the marker used for deletions, and none changes its type (regular file, symbolic
      link, submodule) against a parent. *)
  Definition plain_merge (c : bytes) : Prop :=
    1 < length (hparents H c) ->
    (forall f g, is_Some (hi_tree H c !! f) -> f <> deleted_prefix ++ g) /\
    (forall p f, p ∈ hparents H c -> ~ retyped (hi_tree H p) (hi_tree H c) f).

  (** The whole situation of a run: a well-formed history, [git blame] and the graph right, the listed commits parents first,
      the commits [before] them available in the state [r0] the run starts from. *)
  Record run_ready (k : nat) (e : env) (before : list bytes) (r0 : repo) (cs : list bytes) : Prop := RunReady {
    rr_valid : valid_history k H; rr_context : 2 <= k; rr_slow : slow_blame_right H slow; rr_acyclic : acyclic (hi_parents H);
    rr_env : env_right H slow e; rr_order : parents_first H before cs;
    rr_commits : forall c, c ∈ cs -> is_Some (hi_parents H !! c) /\ plain_merge c;
    rr_before : forall p, p ∈ before -> good r0 p }.

  (** All children of [p] are among the processed commits. *)
  Definition finished (done : list bytes) (p : bytes) : Prop :=
    (exists d, p ∈ hparents H d) /\ forall d, p ∈ hparents H d -> d ∈ done.
End promises.

(** The entries of a log, grouped by commit: the entries of one commit are consecutive, and only merges have several. *)
Definition grouped (parents : bytes -> list bytes) (gs : list (bytes * list lcommit)) : Prop :=
  NoDup gs.*1 /\
  Forall (fun g => g.2 <> [] /\ Forall (fun c => lc_hash c = g.1) g.2 /\ (length (parents g.1) <= 1 -> length g.2 = 1)) gs.

(** [l] holds the (at most) ten longest durations of [all], longest first. *)
Definition slowest_of (all l : list timed) : Prop :=
  exists rest, l ++ rest ≡ₚ all /\ length l = min 10 (length all) /\
    StronglySorted (fun a b => (t_dur b <= t_dur a)%Z) l /\
    forall x y, x ∈ l -> y ∈ rest -> (t_dur y <= t_dur x)%Z.
