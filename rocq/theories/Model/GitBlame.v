(** * gitblame2: the output of [git blame --porcelain]

    /repo/ripsrc/gitblame2/parse_output.go, gitblame.go:31-55 (Run), and /repo/ripsrc/history3/process/process.go:765-779 (slowGitBlame). *)
From Verif.Model Require Import Base GoStrings IncBlame.

(** parse_output.go:7-11 (type line) *)
Record pline := PLine { pl_commit : bytes; pl_content : bytes; pl_meta : gmap bytes bytes }.

(** parse_output.go:30-36: one line of the header after the first. *)
Definition add_meta (l : bytes) (m : gmap bytes bytes) : gmap bytes bytes :=
  match splitn 2 (B " ") l with
  | [k; v] => <[ k := v ]> m
  | _ => <[ l := [] ]> m
  end.

(** parse_output.go:13-53 (parseOutput), as a walk over the lines.  [st]: inside the loop of lines 24-41, the commit and the data of the
    header so far; [None]: before a header.  [metas]: metasByCommit. *)
Fixpoint parse_lines (lines : list bytes) (st : option (bytes * gmap bytes bytes)) (metas : gmap bytes (gmap bytes bytes)) (acc : list pline)
    : outcome (list pline) :=
  match lines, st with
  | [], None => Ret acc
  | [], Some _ => Panic (B "after header in git blame we need the content line")
  | l :: r, None =>
      if bool_decide (l = [] /\ r = []) then Ret acc
      else parse_lines r (Some (match split_char SP l with h :: _ => h | [] => [] end, ∅)) metas acc
  | l :: r, Some (h, m) =>
      match l with
      | [] => Panic (B "index out of range")
      | c :: content =>
          if bool_decide (c = TAB) then
            if decide (m = ∅) then parse_lines r None metas (acc ++ [PLine h content (default ∅ (metas !! h))])
            else parse_lines r None (<[ h := m ]> metas) (acc ++ [PLine h content m])
          else parse_lines r (Some (h, add_meta l m)) metas acc
      end
  end.
Definition parse_output (data : bytes) : outcome (list pline) := parse_lines (split_char NL data) None ∅ [].

(** gitblame.go:31-55 (Run); [git commit file]: what [git blame commit --porcelain -- file] prints; a failure of git is a panic. *)
Definition git_blame (git : bytes -> bytes -> outcome bytes) (commit file : bytes) : outcome (list (bytes * bytes)) :=
  match git commit file with
  | Ret out => do ls <- parse_output out; Ret (map (fun l => (pl_content l, pl_commit l)) ls)
  | Err e | Panic e => Panic e
  end.
(** process.go:765-779 (slowGitBlame) *)
Definition slow_git_blame (git : bytes -> bytes -> outcome bytes) (commit file : bytes) : outcome blame :=
  do ls <- git_blame git commit file;
  Ret (Blame commit (map (fun l => Line l.1 l.2) ls) false).
