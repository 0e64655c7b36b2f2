(** * What [git log -c --raw --numstat --pretty=format:...] prints

    The commit metadata log, written from git-log(1), git-diff(1) ("raw output format", "--numstat") and observed output, not from
    /repo; and what a reader of it should find out. *)
From Verif.Model Require Import Base GoStrings CommitMeta.
From Verif.Spec Require Import Text.

(** [" => "], with which git shows renames. *)
Definition ARROW : bytes := B " => ".
Definition has_arrow (p : bytes) : Prop := exists a b, p = a ++ ARROW ++ b.

(** Line counts: numbers of added and removed lines, or none for a binary file. *)
Inductive counts := Text (adds dels : N) | Bin.
Definition counts_text (c : counts) : bytes :=
  match c with Text a d => show a ++ [TAB] ++ show d | Bin => B "-" ++ [TAB] ++ B "-" end.
Definition adds_of (c : counts) : Z := match c with Text a _ => Z.of_N a | Bin => 0 end.
Definition dels_of (c : counts) : Z := match c with Text _ d => Z.of_N d | Bin => 0 end.
Definition is_bin (c : counts) : bool := match c with Bin => true | Text _ _ => false end.
Definition wf_counts (c : counts) : Prop := match c with Text a d => (a < 2147483648)%N /\ (d < 2147483648)%N | Bin => True end.

(** ** Names in numstat lines *)

(** The name made of a common prefix (empty or ending in a slash), a middle part and a common suffix (empty or starting with a slash);
    with an empty middle part the slashes of prefix and suffix are one and the same. *)
Definition glue (pfx m sfx : bytes) : bytes :=
  match m, sfx with
  | [], _ :: s => pfx ++ s
  | _, _ => pfx ++ m ++ sfx
  end.

(** How git shows the rename of [from] to [to]. *)
Inductive rename_shown : bytes -> bytes -> bytes -> Prop :=
| shown_whole from to : rename_shown from to (from ++ ARROW ++ to)
| shown_parts pfx a b sfx :
    (pfx = [] \/ exists d, pfx = d ++ [SLASH]) -> (sfx = [] \/ exists s, sfx = SLASH :: s) ->
    (a = [] -> pfx <> [] /\ sfx <> []) -> (b = [] -> pfx <> [] /\ sfx <> []) ->
    rename_shown (glue pfx a sfx) (glue pfx b sfx) (pfx ++ B "{" ++ a ++ ARROW ++ b ++ B "}" ++ sfx).

(** A path of a file in a repository: its parts are non-empty, and none is "." or "..". *)
Definition repo_path (p : bytes) : Prop :=
  Forall (fun c => c <> [] /\ c <> B "." /\ c <> B "..") (split_char SLASH p).
(** Names that cannot be confused with git's notation for renames. *)
Definition simple_name (p : bytes) : Prop := "{"%char ∉ p /\ "}"%char ∉ p /\ ">"%char ∉ p.

(** The text [txt] of a numstat line stands for the file [p]: a rename to [p], or [p] itself. *)
Definition stands_for (txt p : bytes) : Prop :=
  (txt = p /\ ~ has_arrow p) \/
  exists from, rename_shown from p txt /\ repo_path from /\ repo_path p /\ simple_name from /\ simple_name p.

(** ** Changes of a commit *)

(** Fields of a raw line before the status: modes and ids before and after. *)
Record raw_info := RawInfo { ri_old_mode : bytes; ri_new_mode : bytes; ri_old_id : bytes; ri_new_id : bytes }.
Definition raw_head (r : raw_info) : bytes :=
  B ":" ++ ri_old_mode r ++ [SP] ++ ri_new_mode r ++ [SP] ++ ri_old_id r ++ [SP] ++ ri_new_id r ++ [SP].

Inductive change :=
| Plain (letter : ascii) (path : bytes)
| Renamed (score from to shown : bytes)
| Copied (score from to shown : bytes).

Definition raw_line (x : raw_info * change * counts) : bytes :=
  let '(r, c, _) := x in
  raw_head r ++
  match c with
  | Plain l p => [l] ++ [TAB] ++ p
  | Renamed s from to _ => B "R" ++ s ++ [TAB] ++ from ++ [TAB] ++ to
  | Copied s from to _ => B "C" ++ s ++ [TAB] ++ from ++ [TAB] ++ to
  end.
Definition stat_line (x : raw_info * change * counts) : bytes :=
  let '(_, c, n) := x in
  counts_text n ++ [TAB] ++ match c with Plain _ p => p | Renamed _ _ _ s => s | Copied _ _ _ s => s end.

(** A, D, M and T (type change) are the statuses of changes of one file. *)
Definition status_of (l : ascii) : cstatus :=
  if bool_decide (l = "A"%char) then Added else if bool_decide (l = "D"%char) then Removed else Modified.

(** The files of a change: a rename removes one and adds another. *)
Definition change_files (x : raw_info * change * counts) : list (bytes * cfile) :=
  let '(_, c, n) := x in
  match c with
  | Plain l p => [(p, CFile p (status_of l) false false [] [] [] (adds_of n) (dels_of n) (is_bin n))]
  | Renamed _ from to _ =>
      [(from, CFile from Removed true false from to [] 0 0 false);
       (to, CFile to Added true false from to [] (adds_of n) (dels_of n) (is_bin n))]
  | Copied _ from to _ => [(to, CFile to Added false true [] [] from (adds_of n) (dels_of n) (is_bin n))]
  end.

(** A field of a raw line: no blank, tab, newline or carriage return. *)
Definition field (s : bytes) : Prop := SP ∉ s /\ TAB ∉ s /\ NL ∉ s /\ CR ∉ s.
(** A path as printed by git: it has no tab or newline (git quotes such paths), does not end in a carriage return; and, as an extra
    assumption, it does not start with a blank. *)
Definition path_text (p : bytes) : Prop :=
  p <> [] /\ TAB ∉ p /\ NL ∉ p /\ no_trailing_cr p /\ forall s, p <> SP :: s.
(** The file is a regular file or was deleted. *)
Definition regular_mode (m : bytes) : Prop := m = B "100644" \/ m = B "100755" \/ m = B "000000".

Definition wf_change (x : raw_info * change * counts) : Prop :=
  let '(r, c, n) := x in
  field (ri_old_mode r) /\ field (ri_old_id r) /\ field (ri_new_id r) /\ wf_counts n /\
  match c with
  | Plain l p =>
      l ∈ ["A"; "D"; "M"; "T"]%char /\ path_text p /\ ~ has_arrow p /\
      (regular_mode (ri_new_mode r) \/ field (ri_new_mode r) /\ status_of l = Modified)
  | Renamed s from to shown | Copied s from to shown =>
      field s /\ s <> [] /\ path_text from /\ path_text to /\ regular_mode (ri_new_mode r) /\
      stands_for shown to /\ TAB ∉ shown /\ NL ∉ shown /\ no_trailing_cr shown
  end.

(** ** Commits *)

(** For a merge git prints the counts for the changes against the first parent, and after them the files changed against all parents,
    one line each, starting with as many colons as there are parents. *)
Inductive body :=
| Changes (cs : list (raw_info * change * counts))
| MergeStats (stats : list (bytes * bytes * counts)) (combined : list (bytes * bytes)).

Definition body_lines (b : body) : list bytes :=
  match b with
  | Changes cs => map raw_line cs ++ map stat_line cs
  | MergeStats ss cm => map (fun '(_, shown, n) => counts_text n ++ [TAB] ++ shown) ss
                        ++ map (fun '(info, p) => B "::" ++ info ++ [TAB] ++ p) cm
  end.
Definition body_files (b : body) : list (bytes * cfile) :=
  match b with
  | Changes cs => concat (map change_files cs)
  | MergeStats ss _ =>
      map (fun '(p, _, n) => (p, CFile p Modified false false [] [] [] (adds_of n) (dels_of n) (is_bin n))) ss
  end.
Definition wf_body (b : body) : Prop :=
  NoDup (map fst (body_files b)) /\
  match b with
  | Changes cs => Forall wf_change cs
  | MergeStats ss cm =>
      (ss = [] -> cm = []) /\
      Forall (fun '(p, shown, n) => stands_for shown p /\ TAB ∉ shown /\ NL ∉ shown /\ no_trailing_cr shown /\ shown <> [] /\ wf_counts n) ss /\
      Forall (fun '(info, p) => TAB ∉ info /\ NL ∉ info /\ path_text p) cm
  end.

Section Log.
Context {T : Type}.

Record meta_entry := MetaEntry {
  me_sha : bytes;
  me_parents : list bytes;
  me_committer_email : bytes;
  me_committer_name : bytes;
  me_author_email : bytes;
  me_author_name : bytes;
  me_date : bytes;        (* as printed *)
  me_time : T;            (* the time it stands for *)
  me_subject : bytes;
  me_body : body }.

Definition entry_header (e : meta_entry) : list bytes :=
  [ B "!SHA: " ++ me_sha e;
    B "!Parents: " ++ join [SP] (me_parents e);
    B "!Committer: " ++ me_committer_email e;
    B "!CName: " ++ me_committer_name e;
    B "!Author: " ++ me_author_email e;
    B "!AName: " ++ me_author_name e;
    B "!Date: " ++ me_date e;
    B "!Message: " ++ me_subject e ].
Definition meta_lines (e : meta_entry) : list bytes := entry_header e ++ body_lines (me_body e).

(** The log: the lines of the entries, with blank lines anywhere between them. *)
Definition meta_log (es : list meta_entry) (ls : list bytes) : Prop :=
  filter (fun l => l <> []) ls = concat (map meta_lines es).

Definition word (s : bytes) : Prop := s <> [] /\ field s.
Definition text_line (s : bytes) : Prop := NL ∉ s /\ no_trailing_cr s.
Definition wf_header (e : meta_entry) : Prop :=
  word (me_sha e) /\ Forall word (me_parents e) /\
  text_line (me_committer_email e) /\ text_line (me_committer_name e) /\
  text_line (me_author_email e) /\ text_line (me_author_name e) /\
  word (me_date e) /\ bare (me_date e) /\ text_line (me_subject e).
Definition wf_meta (time_of : bytes -> option T) (e : meta_entry) : Prop :=
  wf_header e /\ time_of (me_date e) = Some (me_time e) /\ wf_body (me_body e).

(** What should be reported of the [n]-th commit. *)
Definition meta_commit (n : nat) (e : meta_entry) : mcommit T :=
  MCommit (me_sha e) (me_author_name e) (me_author_email e) (me_committer_name e) (me_committer_email e) (me_time e)
          (Z.of_nat n) (me_subject e) (me_parents e) (list_to_map (body_files (me_body e))).
End Log.
Arguments meta_entry T : clear implicits.
