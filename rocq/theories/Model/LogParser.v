(** * history3/process/parser: reading the output of [git log -p -m]

    /repo/ripsrc/history3/process/parser/parser.go *)
From Verif.Model Require Import Base GoStrings.

(** parser.go:34-39 (type Commit; the field Parents is never set by this parser) with Changes' Diff texts
    (parser.go:51-53). *)
Record lcommit := LCommit { lc_hash : bytes; lc_from : bytes; lc_changes : list bytes }.

(** parser.go:26-32; stSkipMessage is never used. *)
Inductive lstate := LNotStarted | LParentsNext | LSkipAuthor | LMsg | LInDiff | LCommitNext.

(** parser.go:11-22 (type Parser).  [lp_out]: the commits sent on the channel so far. *)
Record lparser := LParser { lp_out : list lcommit; lp_commit : lcommit; lp_state : lstate; lp_diff : bytes }.

Definition lp_init : lparser := LParser [] (LCommit [] [] []) LNotStarted [].

(** parser.go:154-156 (isDiffStart) *)
Definition is_diff_start (b : bytes) : bool := Nat.ltb 4 (length b) && beq (take 4 b) (B "diff").

(** parser.go:134-139 (startDiff) *)
Definition lp_start_diff (s : lparser) (b : bytes) : lparser :=
  LParser (lp_out s) (lp_commit s) LInDiff (b ++ [NL]).
(** parser.go:141-145 (endDiff) *)
Definition lp_end_diff (s : lparser) : lparser :=
  let c := lp_commit s in
  LParser (lp_out s) (LCommit (lc_hash c) (lc_from c) (lc_changes c ++ [lp_diff s])) (lp_state s) (lp_diff s).
(** parser.go:147-153 (endCommit) *)
Definition lp_end_commit (s : lparser) : lparser :=
  let s1 := match lp_state s with LInDiff => lp_end_diff s | _ => s end in
  LParser (lp_out s1 ++ [lp_commit s1]) (lp_commit s1) LCommitNext (lp_diff s1).

(** Go slice expression s[a:b]. *)
Definition slice (a b : nat) (s : bytes) : outcome bytes :=
  if Nat.leb a b && Nat.leb b (length s) then Ret (take (b - a) (drop a s)) else Panic (B "slice bounds out of range").

(** parser.go:158-179 (parseCommitLine).  [len-1] of an empty string makes Go's slice expression panic, as here. *)
Definition lp_commit_line (s : lparser) (b : bytes) : outcome lparser :=
  if negb (has_prefix (B "commit ") b) then Panic (B "no 'commit ' prefix")
  else
    let data := drop (length (B "commit ")) b in
    match cut [SP] data with
    | None => Ret (LParser (lp_out s) (LCommit data [] []) LParentsNext (lp_diff s))
    | Some (h, r) =>
        match length r with
        | 0 => Panic (B "slice bounds out of range")
        | S n => do from <- slice (length (B "(from ")) n r;
                 Ret (LParser (lp_out s) (LCommit h from []) LParentsNext (lp_diff s))
        end
    end.

(** parser.go:90-132 (line).  The recursive calls re-enter with a state that does not recurse again
    (stSkipAuthor, stCommitNext), so they are inlined. *)
Definition lp_line (s : lparser) (b : bytes) : outcome lparser :=
  match lp_state s with
  | LNotStarted => lp_commit_line s b
  | LParentsNext =>
      if has_prefix (B "Merge: ") b then Ret s
      else Ret (LParser (lp_out s) (lp_commit s) LMsg (lp_diff s))
  | LSkipAuthor => Ret (LParser (lp_out s) (lp_commit s) LMsg (lp_diff s))
  | LMsg =>
      match b with
      | [] => Ret s
      | c :: _ =>
          if bool_decide (c = SP) then Ret s
          else if is_diff_start b then Ret (lp_start_diff s b)
          else if has_prefix (B "commit ") b then lp_commit_line (lp_end_commit s) b
          else Panic (B "stSkippingMessageDiffOrCommitNext unexpected line")
      end
  | LInDiff =>
      match b with
      | [] => Ret (lp_end_commit s)
      | _ => if is_diff_start b then Ret (lp_start_diff (lp_end_diff s) b)
             else Ret (LParser (lp_out s) (lp_commit s) LInDiff (lp_diff s ++ b ++ [NL]))
      end
  | LCommitNext => lp_commit_line s b
  end.

(** Lines one by one, keeping what was sent before a panic. *)
Fixpoint lp_lines (s : lparser) (ls : list bytes) : lparser * outcome unit :=
  match ls with
  | [] => (s, Ret tt)
  | l :: r => match lp_line s l with
              | Ret s' => lp_lines s' r
              | Err e => (s, Err e)
              | Panic m => (s, Panic m)
              end
  end.

(** parser.go:68-88 (Run): the commits sent on the channel, and how the call ended. *)
Definition log_run (input : bytes) : list lcommit * outcome unit :=
  let '(ts, e) := scan max_line input in
  match lp_lines lp_init ts with
  | (s, Ret _) =>
      if e then (lp_out s, Err (B "bufio.Scanner: token too long"))
      else match lp_state s with
           | LNotStarted => (lp_out s, Ret tt)
           | _ => (lp_out (lp_end_commit s), Ret tt)
           end
  | (s, o) => (lp_out s, o)
  end.
