(** * What a unified diff is, and how git prints one

    Written from git's documentation (git-diff(1), "Generating patch text with -p"), not from /repo. *)
From Verif.Model Require Import Base.
From Verif.Spec Require Import Text.

(** A whole-file edit script: each line of the old and of the new version appears once, in order. *)
Inductive edit := Keep (l : bytes) | Del (l : bytes) | Add (l : bytes).

Definition edit_text (e : edit) : bytes := match e with Keep l | Del l | Add l => l end.

(** The two versions of the file a script talks about. *)
Fixpoint old_text (es : list edit) : list bytes :=
  match es with
  | [] => []
  | Keep l :: r | Del l :: r => l :: old_text r
  | Add _ :: r => old_text r
  end.
Fixpoint new_text (es : list edit) : list bytes :=
  match es with
  | [] => []
  | Keep l :: r | Add l :: r => l :: new_text r
  | Del _ :: r => new_text r
  end.

(** A hunk: the unchanged lines skipped since the previous hunk (not printed), the printed lines, each possibly
    followed by git's "no newline" marker, and the section heading printed after the second @@. *)
Record shunk := SHunk { sh_gap : list bytes; sh_body : list (edit * bool); sh_heading : bytes }.

(** The script a list of hunks and the unchanged rest of the file stand for. *)
Definition hunk_script (h : shunk) : list edit := map Keep (sh_gap h) ++ map fst (sh_body h).
Definition script (hs : list shunk) (tail : list bytes) : list edit :=
  concat (map hunk_script hs) ++ map Keep tail.

Definition old_count (h : shunk) : nat := length (old_text (map fst (sh_body h))).
Definition new_count (h : shunk) : nat := length (new_text (map fst (sh_body h))).

(** "start,count" as git prints it: a count of 1 is omitted, and with a count of 0 the start is the line before. [pos] is the
    number of lines before the range. *)
Definition show_range (pos cnt : nat) : bytes :=
  if Nat.eqb cnt 1 then show_nat (pos + 1)
  else if Nat.eqb cnt 0 then show_nat pos ++ B ",0"
  else show_nat (pos + 1) ++ B "," ++ show_nat cnt.

Definition hunk_header (opos ocnt npos ncnt : nat) (heading : bytes) : bytes :=
  B "@@ -" ++ show_range opos ocnt ++ B " +" ++ show_range npos ncnt ++ B " @@" ++ heading.

Definition edit_line (e : edit) : bytes :=
  match e with
  | Keep l => B " " ++ l
  | Del l => B "-" ++ l
  | Add l => B "+" ++ l
  end.
Definition body_line (x : edit * bool) : list bytes :=
  edit_line (fst x) :: (if snd x then [B "\ No newline at end of file"] else []).
Definition body_lines (b : list (edit * bool)) : list bytes := concat (map body_line b).

(** The hunks of one file; [opos]/[npos]: lines of the old/new file before the first gap. *)
Fixpoint hunks_lines (opos npos : nat) (hs : list shunk) : list bytes :=
  match hs with
  | [] => []
  | h :: r =>
      let o := opos + length (sh_gap h) in
      let n := npos + length (sh_gap h) in
      hunk_header o (old_count h) n (new_count h) (sh_heading h)
        :: body_lines (sh_body h) ++ hunks_lines (o + old_count h) (n + new_count h) r
  end.

(** Every hunk either starts at the top of the file or is preceded by [k] lines of context (git's -U<k>; default 3), and
    two hunks are separated by at least one line that is not printed. *)
Fixpoint has_context (k opos : nat) (first : bool) (hs : list shunk) : Prop :=
  match hs with
  | [] => True
  | h :: r =>
      let o := opos + length (sh_gap h) in
      (first = true \/ sh_gap h <> []) /\
      (o = 0 \/ exists ctx rest, length ctx = k /\ sh_body h = map (fun l => (Keep l, false)) ctx ++ rest) /\
      has_context k (o + old_count h) false r
  end.

(** A file's patch. *)
Inductive fbody :=
| FBNone                       (* no change of content: mode change, pure rename, empty file created or deleted *)
| FBBinary                     (* "Binary files ... differ" *)
| FBText (hs : list shunk).

Inductive fkind :=
| FModify (path : bytes) (modes : option (bytes * bytes))
| FCreate (path mode : bytes)
| FDelete (path mode : bytes)
| FRename (from to sim : bytes) (modes : option (bytes * bytes)).

Record fpatch := FPatch { fp_kind : fkind; fp_index : option bytes; fp_body : fbody }.

Definition kind_old (k : fkind) : bytes :=
  match k with FModify p _ | FCreate p _ | FDelete p _ => p | FRename f _ _ _ => f end.
Definition kind_new (k : fkind) : bytes :=
  match k with FModify p _ | FCreate p _ | FDelete p _ => p | FRename _ t _ _ => t end.

Definition mode_lines (m : option (bytes * bytes)) : list bytes :=
  match m with Some (a, b) => [B "old mode " ++ a; B "new mode " ++ b] | None => [] end.

Definition header_lines (k : fkind) : list bytes :=
  match k with
  | FModify _ m => mode_lines m
  | FCreate _ mode => [B "new file mode " ++ mode]
  | FDelete _ mode => [B "deleted file mode " ++ mode]
  | FRename f t sim m =>
      mode_lines m ++ [B "similarity index " ++ sim; B "rename from " ++ f; B "rename to " ++ t]
  end.

Definition old_side (k : fkind) : bytes :=
  match k with FCreate _ _ => B "/dev/null" | _ => B "a/" ++ kind_old k end.
Definition new_side (k : fkind) : bytes :=
  match k with FDelete _ _ => B "/dev/null" | _ => B "b/" ++ kind_new k end.

(** git appends a tab to the names in the "---" and "+++" lines if they contain a blank. *)
Definition tabbed (s : bytes) : bytes := s ++ (if existsb (fun c => bool_decide (c = SP)) s then [TAB] else []).

Definition fbody_lines (k : fkind) (b : fbody) : list bytes :=
  match b with
  | FBNone => []
  | FBBinary => [B "Binary files " ++ old_side k ++ B " and " ++ new_side k ++ B " differ"]
  | FBText hs => (B "--- " ++ tabbed (old_side k)) :: (B "+++ " ++ tabbed (new_side k)) :: hunks_lines 0 0 hs
  end.

Definition patch_lines (p : fpatch) : list bytes :=
  (B "diff --git a/" ++ kind_old (fp_kind p) ++ B " b/" ++ kind_new (fp_kind p))
    :: header_lines (fp_kind p)
    ++ match fp_index p with Some i => [B "index " ++ i] | None => [] end
    ++ fbody_lines (fp_kind p) (fp_body p).

(** The text git prints for the file. *)
Definition render_patch (p : fpatch) : bytes := unlines (patch_lines p).

(** ** Well-formedness: what git guarantees about its output *)

(** A path git prints without quotes: non-empty, no control characters, double quotes or backslashes
    (git-config(1), core.quotePath). *)
Definition plain_char (c : ascii) : bool :=
  let n := N_of_ascii c in
  ((32 <=? n) && negb (n =? 127) && negb (n =? 34) && negb (n =? 92))%N.
Definition plain_path (p : bytes) : Prop := p <> [] /\ forallb plain_char p = true.
(** Mode, similarity and index values: non-empty words without control characters. *)
Definition word (w : bytes) : Prop := w <> [] /\ forallb (fun c => plain_char c && negb (bool_decide (c = SP))) w = true.
Definition index_value (w : bytes) : Prop := forallb plain_char w = true.

Definition wf_modes (m : option (bytes * bytes)) : Prop :=
  match m with Some (a, b) => word a /\ word b | None => True end.
Definition wf_kind (k : fkind) : Prop :=
  match k with
  | FModify p m => plain_path p /\ wf_modes m
  | FCreate p m | FDelete p m => plain_path p /\ word m
  | FRename f t s m => plain_path f /\ plain_path t /\ f <> t /\ word s /\ wf_modes m
  end.
Definition wf_hunk (h : shunk) : Prop :=
  no_nl (sh_heading h) /\ Forall (fun x => no_nl (edit_text (fst x))) (sh_body h).
Definition wf_body (b : fbody) : Prop :=
  match b with FBText hs => hs <> [] /\ Forall wf_hunk hs | _ => True end.
Definition wf_patch (p : fpatch) : Prop :=
  wf_kind (fp_kind p) /\ match fp_index p with Some i => index_value i | None => True end /\ wf_body (fp_body p).

(** No line reaches the documented limit of 100 MB. *)
Definition short_lines (ls : list bytes) : Prop := Forall (fun l => (N.of_nat (length l) < 100000000)%N) ls.

(** The old and the new name a change is about: a created file has no old name, a deleted one no new name. *)
Definition name_before (k : fkind) : bytes := match k with FCreate _ _ => [] | _ => kind_old k end.
Definition name_after (k : fkind) : bytes := match k with FDelete _ _ => [] | _ => kind_new k end.
Definition is_binary_body (b : fbody) : bool := match b with FBBinary => true | _ => false end.

(** ** Names git prints in double quotes (control or non-ASCII bytes, quotes, backslashes); [q] is the escaped form. *)
Definition quoted (q : bytes) : bytes := QUOTE :: q ++ [QUOTE].
Definition escaped_char (c : ascii) : bool := let n := N_of_ascii c in ((32 <=? n) && negb (n =? 127))%N.
Definition escaped_name (q : bytes) : Prop := q <> [] /\ forallb escaped_char q = true.

(** git's output for a content-less modification (mode change) and for a pure rename of such files. *)
Definition quoted_mode_change (q : bytes) : bytes :=
  unlines [B "diff --git " ++ quoted (B "a/" ++ q) ++ B " " ++ quoted (B "b/" ++ q);
           B "old mode 100644"; B "new mode 100755"].
Definition quoted_rename (q q' : bytes) : bytes :=
  unlines [B "diff --git " ++ quoted (B "a/" ++ q) ++ B " " ++ quoted (B "b/" ++ q');
           B "similarity index 100%"; B "rename from " ++ quoted q; B "rename to " ++ quoted q'].

Definition short_name (q : bytes) : Prop := (N.of_nat (length q) < 1000000)%N.
