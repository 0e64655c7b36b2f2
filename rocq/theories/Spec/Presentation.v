(** * The same history, printed in another way

    What git's settings change about the printing of a log without changing what it says: the number of lines of context, the joining of close
    hunks, the heading of a hunk, the length of the ids in the "index" line, the similarity shown for a rename, and the lines about a commit before
    its patches (author, message). *)
From Verif.Model Require Import Base.
From Verif.Spec Require Import Text UnifiedDiff History.

(** The hunks say the same if they are the printed parts of one list of edits of the whole file: [tail], [tail'] are the lines after the last hunk. *)
Definition same_hunks (hs hs' : list shunk) : Prop := exists tail tail', script hs tail = script hs' tail'.
Definition same_body (b b' : fbody) : Prop :=
  match b, b' with
  | FBNone, FBNone | FBBinary, FBBinary => True
  | FBText hs, FBText hs' => same_hunks hs hs'
  | _, _ => False
  end.
Definition same_patch (p p' : fpatch) : Prop :=
  name_before (fp_kind p) = name_before (fp_kind p') /\ name_after (fp_kind p) = name_after (fp_kind p') /\ same_body (fp_body p) (fp_body p').

(** One history, two printings: the same commits, parents and trees, and patches that say the same; what is shown of a commit apart from its patches
    ([hi_meta]) is arbitrary. *)
Definition same_history (H H' : history) : Prop :=
  hi_parents H = hi_parents H' /\ hi_tree H = hi_tree H' /\ forall c p, Forall2 same_patch (hi_diff H c p) (hi_diff H' c p).
