(** * What [git blame --porcelain] prints

    git-blame(1), "The porcelain format": per line a header (commit id, line numbers), data about the commit (only the first time the
    commit occurs), and the line after a TAB. *)
From Verif.Model Require Import Base.
From Verif.Spec Require Import Text GitLog.

Record porcelain := Porcelain {
  po_commit : bytes;
  po_numbers : bytes;                              (* " 1 1 2" *)
  po_meta : list (bytes * option bytes);           (* ("author", Some "A U Thor"), ("boundary", None) *)
  po_text : bytes }.
Definition meta_text (kv : bytes * option bytes) : bytes := match kv.2 with Some v => kv.1 ++ [SP] ++ v | None => kv.1 end.
Definition porcelain_lines (p : porcelain) : list bytes := [po_commit p ++ po_numbers p] ++ map meta_text (po_meta p) ++ [TAB :: po_text p].
Definition render_porcelain (ls : list porcelain) : bytes := unlines (concat (map porcelain_lines ls)).

Definition wf_meta (kv : bytes * option bytes) : Prop :=
  kv.1 <> [] /\ SP ∉ kv.1 /\ NL ∉ kv.1 /\ TAB ∉ kv.1 /\ match kv.2 with Some v => NL ∉ v | None => True end.
Definition wf_porcelain (p : porcelain) : Prop :=
  commit_id (po_commit p) /\ (po_numbers p = [] \/ exists s, po_numbers p = SP :: s) /\ NL ∉ po_numbers p /\
  Forall wf_meta (po_meta p) /\ NoDup (map fst (po_meta p)) /\ NL ∉ po_text p.
(** The data about the commit printed with a line. *)
Definition data_of (p : porcelain) : gmap bytes bytes := list_to_map (map (fun kv => (kv.1, default [] kv.2)) (po_meta p)).
(** The data is printed with the first line of each commit and with no other. *)
Definition printed_once (ls : list porcelain) : Prop :=
  forall i p, ls !! i = Some p -> po_meta p <> [] <-> forall j q, j < i -> ls !! j = Some q -> po_commit q <> po_commit p.
(** [q] is the first line of commit [c]. *)
Definition first_of (ls : list porcelain) (c : bytes) (q : porcelain) : Prop :=
  exists j, ls !! j = Some q /\ po_commit q = c /\ forall k q', k < j -> ls !! k = Some q' -> po_commit q' <> c.
