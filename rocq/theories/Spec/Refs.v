(** * How git prints branches *)
From Verif.Model Require Import Base GoSort.
From Verif.Spec Require Import Text GitLog.

(** A branch: its commit, its short name (without the remote's prefix) and the date of the commit as git prints it. *)
Record ref := Ref { rf_commit : bytes; rf_name : bytes; rf_date : bytes }.
(** The short name of a branch of the remote "origin", or of a local branch. *)
Definition shown (remote : bool) (n : bytes) : bytes := if remote then B "origin/" ++ n else n.
(** A line of [git for-each-ref --format '%(objectname)@@@%(refname:short)@@@%(committerdate)']. *)
Definition ref_line (remote : bool) (r : ref) : bytes := rf_commit r ++ B "@@@" ++ shown remote (rf_name r) ++ B "@@@" ++ rf_date r.
Definition render_refs (remote : bool) (l : list ref) : bytes := unlines (map (ref_line remote) l).

(** Names have no blanks and no control characters of ASCII (git check-ref-format); other characters, white space among them, are allowed. *)
Definition graphic (c : ascii) : bool := (33 <=? N_of_ascii c)%N && negb (N_of_ascii c =? 127)%N.
Definition ref_name (n : bytes) : Prop := n <> [] /\ forallb graphic n = true.
(** The name does not run into the separator: no "@@@" in it, no "@" at its end. *)
Definition no_separator (n : bytes) : Prop := (forall x y, n <> x ++ B "@@@" ++ y) /\ (forall x, n <> x ++ B "@").
(** Dates have no newline, are not empty and neither start nor end with white space. *)
Definition date_text (d : bytes) : Prop := NL ∉ d /\ d <> [] /\ bare d.
Definition wf_ref (r : ref) : Prop := commit_id (rf_commit r) /\ ref_name (rf_name r) /\ no_separator (rf_name r) /\ date_text (rf_date r).
