(** * C104: the lines of branches can be read back *)
From Verif.Model Require Import Base GoStrings Branches BranchMeta StatsText BranchesCommand BranchLine.
From Verif.Spec Require Import Text BranchReading.
From Verif.Proofs Require Import TextLemmas BranchLineProofs ProcessExamples.
From Coq Require Import Lia.

(** The line printed for a branch. *)
Theorem C104_line (b : branch) : branch_text (branch_line b) =
  B "[BR] " ++ br_name b ++ B " commits " ++ show_nat (length (br_commits b)) ++ B " first_commit " ++ br_first b ++
  match br_commits b with c :: _ => B " commits[0] " ++ c | [] => [] end ++ [NL].
Proof. apply text_of_branch. Qed.
(** What is printed for any number of branches determines how many they are and, for each, its name, the number of its commits, its first commit and the
    first of its commits, if any. *)
Theorem C104_readable (bs bs' : list branch) : (forall b, b ∈ bs \/ b ∈ bs' -> plain_branch b) ->
  concat (map (fun b => branch_text (branch_line b)) bs) = concat (map (fun b => branch_text (branch_line b)) bs') -> Forall2 same_branch bs bs'.
Proof. intros H. apply branches_inj; apply Forall_forall; intros b Hb; apply H; [by left|by right]. Qed.
Print Assumptions C104_line.
Print Assumptions C104_readable.

Definition bl_first : bytes := B "1111111111111111111111111111111111111111".
Definition bl_second : bytes := B "2222222222222222222222222222222222222222".
Definition bl_topic : branch := Branch (B "id") (B "feature/x") false bl_second false false [] [bl_first] [bl_first; bl_second] 0 2 bl_first.
Definition bl_empty : branch := Branch (B "id2") (B "old") false bl_first false true [] [] [] 1 0 [].
Example C104_hypotheses_hold : (forall b, b ∈ [bl_topic; bl_empty] -> plain_branch b) /\
  concat (map (fun b => branch_text (branch_line b)) [bl_topic; bl_empty]) = unlines
    [B "[BR] feature/x commits 2 first_commit " ++ bl_first ++ B " commits[0] " ++ bl_first; B "[BR] old commits 0 first_commit "].
Proof.
  split; [|vm_compute; reflexivity].
  assert (C : forall x : bytes, forallb (fun c => negb (bool_decide (c = SP)) && negb (bool_decide (c = NL))) x = true -> one_word x).
  { intros x Hx. rewrite forallb_forall in Hx. split; intros K; apply elem_of_list_In in K; apply Hx in K; discriminate. }
  intros b Hb. apply elem_of_cons in Hb as [->|Hb]; [|apply elem_of_cons in Hb as [->|Hb]; [|by apply elem_of_nil in Hb]].
  - split; [apply C; vm_compute; reflexivity|]. split; [apply C; vm_compute; reflexivity|]. apply Forall_cons. split; [apply C; vm_compute; reflexivity|]. apply Forall_cons. split; [apply C; vm_compute; reflexivity|apply Forall_nil_2].
  - split; [apply C; vm_compute; reflexivity|]. split; [apply C; vm_compute; reflexivity|apply Forall_nil_2].
Qed.
Print Assumptions C104_hypotheses_hold.
