(** * Comparing two blames

    What the command validate_inc_blame should say. *)
From Verif.Model Require Import Base GoStrings IncBlame CommitMeta Process Validate.
From Verif.Spec Require Import Text.

(** The same number of lines, each with the same text and commit. *)
Definition same_blame (ls1 : list line) (ls2 : list (bytes * bytes)) : Prop := map (fun l => (l_data l, l_commit l)) ls1 = ls2.

(** The same number of lines; each has the same text up to blanks around it, and the same commit unless the text is very short. *)
Definition similar_blame (ls1 : list line) (ls2 : list (bytes * bytes)) : Prop :=
  length ls1 = length ls2 /\
  forall i l1 l2, ls1 !! i = Some l1 -> ls2 !! i = Some l2 ->
    exists t, trimmed (l_data l1) t /\ trimmed l2.1 t /\ (l_commit l1 = l2.2 \/ length t <= 10).

(** Messages that report a difference for a file. *)
Definition complaint (c p : bytes) (m : vmessage) : Prop :=
  m = LenMismatch c p \/ (exists i, m = InvalidCommit c p i) \/ exists i, m = InvalidContent c p i.
Definition complains (ms : list vmessage) (c p : bytes) : Prop := exists m, m ∈ ms /\ complaint c p m.
