(** * What [git log -p -m --pretty=short --no-abbrev-commit] prints

    Written from git-log(1) and observed output, not from /repo. *)
From Verif.Model Require Import Base GoStrings LogParser.
From Verif.Spec Require Import Text UnifiedDiff.

(** One entry of the log.  A merge is printed once per parent it differs from, with "(from <parent>)" after its id, and has
    a "Merge:" line.  The message is the (possibly empty, possibly multi-line) title, indented by four blanks. *)
Record log_entry := LogEntry {
  le_hash : bytes;
  le_from : option bytes;
  le_merge : option bytes;
  le_author : bytes;
  le_subject : list bytes;
  le_blank : nat;                 (* blank lines between the message and the patch *)
  le_patches : list fpatch }.

Definition entry_lines (e : log_entry) : list bytes :=
  (B "commit " ++ le_hash e ++ match le_from e with Some p => B " (from " ++ p ++ B ")" | None => [] end)
  :: match le_merge e with Some m => [B "Merge: " ++ m] | None => [] end
  ++ [B "Author: " ++ le_author e; []]
  ++ map (fun l => B "    " ++ l) (le_subject e)
  ++ repeat [] (le_blank e)
  ++ concat (map patch_lines (le_patches e)).

(** Entries are separated by one blank line. *)
Fixpoint log_lines (es : list log_entry) : list bytes :=
  match es with
  | [] => []
  | [e] => entry_lines e
  | e :: r => entry_lines e ++ [[]] ++ log_lines r
  end.
Definition render_log (es : list log_entry) : bytes := unlines (log_lines es).

(** A commit id: hexadecimal digits. *)
Definition hex_char (c : ascii) : bool :=
  let n := N_of_ascii c in (((48 <=? n) && (n <=? 57)) || ((97 <=? n) && (n <=? 102)))%N.
Definition commit_id (h : bytes) : Prop := h <> [] /\ forallb hex_char h = true.

Definition wf_entry (e : log_entry) : Prop :=
  commit_id (le_hash e) /\ match le_from e with Some p => commit_id p | None => True end /\
  match le_merge e with Some m => no_nl m | None => True end /\
  no_nl (le_author e) /\ Forall no_nl (le_subject e) /\ Forall wf_patch (le_patches e).

(** ** What a reader of the log should get out of it *)

(** The text of a file's patch: its lines, each without a carriage return at its end. *)
Definition change_text (p : fpatch) : bytes := unlines (map drop_cr (patch_lines p)).
(** The commit of an entry, the parent it is compared with (empty if none is printed), and the texts of its patches. *)
Definition commit_of (e : log_entry) : lcommit :=
  LCommit (le_hash e) (default [] (le_from e)) (map change_text (le_patches e)).
