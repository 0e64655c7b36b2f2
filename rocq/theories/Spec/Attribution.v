(** * Blame attribution across one change

    [attributed c es old new]: when the edit script [es] turns the lines [old] into the lines [new] in commit [c], kept
    lines are carried over as they are, deleted lines disappear, and each added line is attributed to [c].
    [crs t t'] says which trailing carriage returns the reader of the diff may drop from an added line. *)
From Verif.Model Require Import Base IncBlame.
From Verif.Spec Require Import Text UnifiedDiff.

Inductive attributed (crs : bytes -> bytes -> Prop) (c : bytes) : list edit -> list line -> list line -> Prop :=
| att_nil : attributed crs c [] [] []
| att_keep t l es old new :
    attributed crs c es old new -> attributed crs c (Keep t :: es) (l :: old) (l :: new)
| att_del t l es old new :
    attributed crs c es old new -> attributed crs c (Del t :: es) (l :: old) new
| att_add t t' es old new :
    crs t t' -> attributed crs c es old new -> attributed crs c (Add t :: es) old (Line t' c :: new).

(** The texts of a list of blame lines. *)
Definition texts (ls : list line) : list bytes := map l_data ls.

(** [a] is [b] up to trailing carriage returns. *)
Definition same_up_to_cr (a b : bytes) : Prop := exists t, cr_trimmed a t /\ cr_trimmed b t.

(** For each line of the new version, the old line it was kept from, if any. *)
Fixpoint origins (es : list edit) (old : list line) : list (option line) :=
  match es with
  | [] => []
  | Keep _ :: r => match old with [] => [] | l :: o => Some l :: origins r o end
  | Del _ :: r => origins r (tail old)
  | Add _ :: r => None :: origins r old
  end.


(** ** One parent of a merge: its blame, git's patch against it, and what that patch means. *)
Record mparent := MParent { mp_blame : blame; mp_patch : fpatch; mp_hunks : list shunk; mp_tail : list bytes }.
Definition mp_script (p : mparent) : list edit := script (mp_hunks p) (mp_tail p).
(** The patch against this parent is one git could print, it fits the parent's blame, and no line of the parent is
    already attributed to the merge commit. *)
Definition merge_parent_ok (k : nat) (commit : bytes) (p : mparent) : Prop :=
  wf_patch (mp_patch p) /\ short_lines (patch_lines (mp_patch p)) /\ fp_body (mp_patch p) = FBText (mp_hunks p) /\
  (forall q m, fp_kind (mp_patch p) <> FDelete q m) /\ has_context k 0 true (mp_hunks p) /\
  b_binary (mp_blame p) = false /\ Forall2 same_up_to_cr (texts (b_lines (mp_blame p))) (old_text (mp_script p)) /\
  Forall (fun l => l_commit l <> commit) (b_lines (mp_blame p)).

(** Line [n] of the merged file is line [o] of this parent / is not in this parent. *)
Definition kept_line (p : mparent) (n : nat) (o : line) : Prop :=
  origins (mp_script p) (b_lines (mp_blame p)) !! n = Some (Some o).
Definition added_line (p : mparent) (n : nat) : Prop :=
  origins (mp_script p) (b_lines (mp_blame p)) !! n = Some None.
