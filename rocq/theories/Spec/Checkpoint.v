(** * What a checkpoint must preserve *)
From Verif.Model Require Import Base IncBlame LogParser Msgp Process Checkpoint CheckpointFS.

(** ** Records: what can be encoded *)
#[local] Open Scope N_scope.
(** Strings of less than 2^32 bytes, numbers below 2^64, lists of less than 2^32 numbers. *)
Definition small (s : bytes) : Prop := len s < 4294967296.
Definition num (n : N) : Prop := n < 18446744073709551616.
Definition wf_row (z : drow) : Prop := small (dr_commit z) /\ small (dr_path z) /\ num (dr_blame z).
Definition wf_dblame (z : dblame) : Prop :=
  num (db_pointer z) /\ small (db_commit z) /\ Forall num (db_lines z) /\ N.of_nat (length (db_lines z)) < 4294967296.
Definition wf_dline (z : dline) : Prop := num (dl_pointer z) /\ small (dl_commit z) /\ num (dl_data z).
Definition wf_ldata (z : dldata) : Prop := num (dd_pointer z) /\ small (dd_data z).

(** [p] is a proper prefix of [w]. *)
Definition cut (p w : bytes) : Prop := exists q, q <> [] /\ w = p ++ q.

(** ** Repository states with pointers *)
#[local] Open Scope nat_scope.

(** No dangling pointers. *)
Definition sound (S : prepo) : Prop :=
  (forall c fs f b, pr_files S !! c = Some fs -> fs !! f = Some b -> b < length (pr_blames S)) /\
  (forall b bl q, pr_blames S !! b = Some bl -> q ∈ pb_lines bl -> q < length (pr_lines S)).

(** What is stored for a path of a commit: the address of its blame, and the address of its [i]-th line. *)
Definition blame_at (S : prepo) (c f : bytes) : option nat := pr_files S !! c ≫= fun fs : gmap bytes nat => fs !! f.
Definition line_at (S : prepo) (c f : bytes) (i : nat) : option nat :=
  blame_at S c f ≫= fun b => pr_blames S !! b ≫= fun bl => pb_lines bl !! i.
(** [values S] (Model/Checkpoint.v): the same without addresses. *)

(** Commits that have at least one file. *)
Definition with_files (r : repo) : repo := filter (fun x : bytes * gmap bytes blame => x.2 <> ∅) r.

(** The contents of the lines that are in use. *)
Definition used_line (S : prepo) (l : line) : Prop :=
  exists c f i q, line_at S c f i = Some q /\ pr_lines S !! q = Some l.
(** The hash tells the contents apart. *)
Definition no_collision (hash : bytes -> N) (S : prepo) : Prop :=
  forall l l', used_line S l -> used_line S l' -> hash (l_data l) = hash (l_data l') -> l_data l = l_data l'.

(** [S'] is [S] read back: the same commits (those that have files), paths and contents, and the same sharing of blame objects
    and of line objects. *)
Definition restored (S S' : prepo) : Prop :=
  values S' = with_files (values S) /\
  (forall c f c' f', blame_at S' c f = blame_at S' c' f' <-> blame_at S c f = blame_at S c' f') /\
  (forall c f i c' f' i', line_at S' c f i = line_at S' c' f' i' <-> line_at S c f i = line_at S c' f' i').

(** What the format can hold: strings and blames of less than 2^32 bytes/lines, less than 2^64 objects, a 64 bit hash. *)
Definition encodable (hash : bytes -> N) (S : prepo) : Prop :=
  (forall d, num (hash d)) /\
  (forall c f b, blame_at S c f = Some b -> small c /\ small f) /\
  (forall bl, bl ∈ pr_blames S -> small (pb_commit bl) /\ (N.of_nat (length (pb_lines bl)) < 4294967296)%N) /\
  (forall l, l ∈ pr_lines S -> small (l_commit l) /\ small (l_data l)) /\
  num (N.of_nat (length (pr_blames S))) /\ num (N.of_nat (length (pr_lines S))).

(** What is known of each stored file apart from the texts of its lines: commit of the blame, binary flag, commits of the lines. *)
Definition shape_at (S : prepo) (c f : bytes) : option (bytes * bool * list bytes) :=
  (blame_at S c f ≫= blame_value S) ≫= fun b => Some (b_commit b, b_binary b, map l_commit (b_lines b)).
(** The text of the [i]-th line of a stored file. *)
Definition text_at (S : prepo) (c f : bytes) (i : nat) : option bytes := l_data <$> (line_at S c f i ≫= fun q => pr_lines S !! q).

(** [P] has nothing but what [P'] has: each of its files has the same value there. *)
Definition part_of (P P' : prepo) : Prop :=
  forall c f v, (values P !! c ≫= fun fs : gmap bytes blame => fs !! f) = Some v -> (values P' !! c ≫= fun fs : gmap bytes blame => fs !! f) = Some v.
(** Each file is cut short or complete. *)
Definition prefix_files (c c' : cfiles) : Prop :=
  cf_repo c `prefix_of` cf_repo c' /\ cf_blames c `prefix_of` cf_blames c' /\ cf_lines c `prefix_of` cf_lines c' /\ cf_ldata c `prefix_of` cf_ldata c'.

(** ** The checkpoint directory *)
(** The directory holds the complete files [c] and the version [v], and nothing else. *)
Definition holds (d : dir) (c : cfiles) (v : bytes) : Prop :=
  d !! B "repo" = Some (cf_repo c) /\ d !! B "blames" = Some (cf_blames c) /\ d !! B "lines" = Some (cf_lines c) /\
  d !! B "line-data" = Some (cf_ldata c) /\ d !! B "checkpoint-version" = Some v /\
  forall n, n ∉ [B "repo"; B "blames"; B "lines"; B "line-data"; B "checkpoint-version"] -> d !! n = None.
(** An order in which the entries of a directory are removed. *)
Definition removal_order (o : list bytes -> list bytes) : Prop := forall l, o l ≡ₚ l.
