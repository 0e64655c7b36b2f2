(** * The two logs of one repository, and the records of a run *)
From Verif.Model Require Import Base GoStrings IncBlame ParentsGraph Process CommitMeta FileInfo CodeInfo.
From Verif.Spec Require Import Text UnifiedDiff Attribution GitLog CommitGraph History Processing Records MetaLog.

(** ** The patches [ps] and the raw lines [xs] printed for one commit show the same changes *)

(** The path after the change, or before it if the file is deleted. *)
Definition patch_path (p : fpatch) : bytes := match fp_kind p with FDelete f _ => f | k => name_after k end.
Definition change_path (c : change) : bytes := match c with Plain _ f => f | Renamed _ _ f _ | Copied _ _ f _ => f end.

Definition modified (ps : list fpatch) (f : bytes) : Prop := exists p m, p ∈ ps /\ fp_kind p = FModify f m.
Definition created (ps : list fpatch) (f : bytes) : Prop := exists p m, p ∈ ps /\ fp_kind p = FCreate f m.
Definition deleted (ps : list fpatch) (f : bytes) : Prop := exists p m, p ∈ ps /\ fp_kind p = FDelete f m.
Definition moved (ps : list fpatch) (f g : bytes) : Prop := exists p s m, p ∈ ps /\ fp_kind p = FRename f g s m.

(** In the patches a change of type is a deletion and a creation. *)
Definition shown_as (ps : list fpatch) (c : change) : Prop :=
  match c with
  | Plain l f =>
      (l = "M"%char /\ modified ps f) \/ (l = "A"%char /\ created ps f /\ ~ deleted ps f) \/
      (l = "D"%char /\ deleted ps f /\ ~ created ps f) \/ (l = "T"%char /\ created ps f /\ deleted ps f)
  | Renamed _ f g _ => moved ps f g
  | Copied _ _ _ _ => False
  end.
Definition same_changes (ps : list fpatch) (xs : list (raw_info * change * counts)) : Prop :=
  Forall (fun x => shown_as ps x.1.2) xs /\ forall p, p ∈ ps -> exists x, x ∈ xs /\ change_path x.1.2 = patch_path p.

Section Logs.
Context {T L : Type} (H : history).

(** The metadata entry of a commit: the changes of a commit with at most one parent; for a merge the counts of the files that are
    changed against the first parent. *)
Definition entry_matches (m : meta_entry T) : Prop :=
  match me_body m with
  | Changes xs => length (hparents H (me_sha m)) <= 1 /\ same_changes (patches_of H (me_sha m)) xs
  | MergeStats ss _ =>
      exists p0 p1 ps, hparents H (me_sha m) = p0 :: p1 :: ps /\
        forall f, f ∈ map (fun x : bytes * bytes * counts => x.1.1) ss <-> touched (hi_diff H (me_sha m) p0) f
  end.
(** The metadata log lists the commits [cs], in any order. *)
Definition metadata_for (cs : list bytes) (es : list (meta_entry T)) : Prop :=
  map me_sha es ≡ₚ cs /\ Forall entry_matches es.

(** ** Records *)

(** The status of a path changed by a commit with at most one parent. *)
Inductive status_shown (ps : list fpatch) (f : bytes) : cstatus -> Prop :=
| ss_modified : modified ps f -> status_shown ps f Modified
| ss_created : created ps f -> ~ deleted ps f -> status_shown ps f Added
| ss_moved g : moved ps g f -> status_shown ps f Added
| ss_deleted : deleted ps f -> ~ created ps f -> status_shown ps f Removed
| ss_retyped : created ps f -> deleted ps f -> status_shown ps f Modified.

(** A line of a record carries the commit of the blame line, and author and date of that commit. *)
Definition line_right (es : list (meta_entry T)) (l : line) (bl : bline T) : Prop :=
  bl_sha bl = l_commit l /\
  exists m, m ∈ es /\ me_sha m = l_commit l /\ bl_name bl = me_author_name m /\ bl_email bl = me_author_email m /\ bl_date bl = me_time m.

(** The same for a run that has read the entries [es] only: a line of another commit has no author and no date. *)
Definition line_since (zero_time : T) (es : list (meta_entry T)) (l : line) (bl : bline T) : Prop :=
  line_right es l bl \/
  (bl_sha bl = l_commit l /\ (forall m, m ∈ es -> me_sha m <> l_commit l) /\ bl_name bl = [] /\ bl_email bl = [] /\ bl_date bl = zero_time).

(** The blame of the file follows from the history, and the record shows it, each line as [line_ok] says. *)
Definition lines_right (slow : bytes -> bytes -> outcome blame) (line_ok : line -> bline T -> Prop) (c f : bytes) (r : bresult T L) : Prop :=
  exists b, blame_of H slow c f b /\ Forall2 line_ok (b_lines b) (br_lines r).

Definition not_skipped (r : bresult T L) : Prop := br_skipped r = [] \/ br_skipped r = B "file was a generated file".

(** The records of a commit with at most one parent: one for each path its patches write or delete. *)
Definition records_right (slow : bytes -> bytes -> outcome blame) (line_ok : line -> bline T -> Prop) (c : bytes) (rs : list (bresult T L)) : Prop :=
  NoDup (map br_filename rs) /\
  (forall f, f ∈ map br_filename rs <-> touched (patches_of H c) f) /\
  forall r, r ∈ rs -> mc_sha (br_commit r) = c /\ status_shown (patches_of H c) (br_filename r) (br_status r) /\
    (br_status r = Removed <-> br_skipped r = B "File was removed") /\
    (not_skipped r -> lines_right slow line_ok c (br_filename r) r) /\ (~ not_skipped r -> br_lines r = []).

(** The records of a merge: each file that differs from all parents has one; a file of the merge that has a record differs from the
    first parent, and from all of them unless it is tracked as binary (it has no lines then). *)
Definition merge_records_right (slow : bytes -> bytes -> outcome blame) (line_ok : line -> bline T -> Prop) (c : bytes) (rs : list (bresult T L)) : Prop :=
  NoDup (map br_filename rs) /\
  (forall f, is_Some (hi_tree H c !! f) -> (forall p, p ∈ hparents H c -> hi_tree H p !! f <> hi_tree H c !! f) -> f ∈ map br_filename rs) /\
  forall r, r ∈ rs -> mc_sha (br_commit r) = c /\
    (forall p, hparents H c !! 0 = Some p -> hi_tree H p !! br_filename r <> hi_tree H c !! br_filename r) /\
    (is_Some (hi_tree H c !! br_filename r) -> not_skipped r -> lines_right slow line_ok c (br_filename r) r) /\
    (hi_tree H c !! br_filename r = None -> br_lines r = []).

(** The records of a commit. *)
Definition commit_records_right (slow : bytes -> bytes -> outcome blame) (line_ok : line -> bline T -> Prop) (c : bytes) (rs : list (bresult T L)) : Prop :=
  if decide (1 < length (hparents H c)) then merge_records_right slow line_ok c rs else records_right slow line_ok c rs.
End Logs.
