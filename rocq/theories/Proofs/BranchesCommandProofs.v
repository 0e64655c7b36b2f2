(** * The command branches: proofs for C91 *)
From Verif.Model Require Import Base GoStrings GoSort IncBlame ParentsGraph Process CommitMeta Branches BranchMeta Net BranchPool GitRepos LogArgs Api BranchesApi Commands CodeCommand BranchesCommand.
From Verif.Spec Require Import Text GitLog CommitGraph Selection Refs BranchDelivery BranchAnswers Failing CodePrinting BranchPrinting.
From Coq Require Import Lia.

Lemma branch_line_shows b : shows_branch b (branch_line b).
Proof.
  unfold shows_branch, branch_line. cbn [bi_name bi_commits bi_first bi_commit0]. do 3 (split; [reflexivity|]). split.
  - intros c rest E. by rewrite E.
  - intros E. by rewrite E.
Qed.
Lemma branch_lines_show bs : Forall2 shows_branch bs (map branch_line bs).
Proof. induction bs as [|b bs IH]; [constructor|]. cbn [map]. constructor; [apply branch_line_shows|exact IH]. Qed.

Lemma returned_at (c : bconfig) oc : branches_returned c = Some oc <-> locals c !! 0 = Some (LBM (BStop oc)).
Proof.
  unfold branches_returned. split.
  - repeat match goal with |- context[match ?y with _ => _ end] => destruct y end; try discriminate. by intros [= ->].
  - by intros ->.
Qed.

Section Ends.
Context {T : Type} (parse_date : bytes -> option T) (sha : bytes -> bytes) (graph_order : graph -> list (bytes * list bytes)) (pr_order : list bytes -> list bytes)
  (rng : BranchPool.item -> list bytes -> list bytes) (git : bound -> list bytes -> outcome bytes) (dir : bytes) (cpus : nat).
Notation may := (branches_may_end parse_date sha graph_order pr_order rng git dir cpus).
(** If no schedule crashes, the ends are those of the final states. *)
Lemma ends_of_runs (s : bsetup) (Q : bconfig -> Prop) (err : outcome unit -> Prop) :
  branches_setup parse_date sha graph_order git dir branches_command_opts = Ret s ->
  (forall c, rtc (step (branches_act sha pr_order rng branches_command_opts cpus s)) (branches_start cpus s) c -> ~ crashing (branches_act sha pr_order rng branches_command_opts cpus s) c /\
     (final (branches_act sha pr_order rng branches_command_opts cpus s) c -> Q c /\ exists oc, branches_returned c = Some oc /\ err oc)) ->
  forall e, may e -> exists c oc, Q c /\ err oc /\ e = branches_finish (map branch_line (branches_received c)) oc.
Proof.
  intros Es Hall e. unfold branches_may_end. rewrite Es. cbv zeta. intros (c & Hc & He). destruct (Hall c Hc) as [Hn Hf].
  destruct He as [[? _]|(Hfin & oc & Hl & ->)]; [done|]. destruct (Hf Hfin) as (HQ & oc' & Hr & Ho). apply returned_at in Hl. rewrite Hl in Hr. injection Hr as <-.
  exists c, oc. split; [exact HQ|]. split; [exact Ho|reflexivity].
Qed.
(** There is one. *)
Lemma some_end (s : bsetup) : branches_setup parse_date sha graph_order git dir branches_command_opts = Ret s ->
  (exists c, rtc (step (branches_act sha pr_order rng branches_command_opts cpus s)) (branches_start cpus s) c /\ final (branches_act sha pr_order rng branches_command_opts cpus s) c) ->
  (forall c, final (branches_act sha pr_order rng branches_command_opts cpus s) c -> rtc (step (branches_act sha pr_order rng branches_command_opts cpus s)) (branches_start cpus s) c -> exists oc, branches_returned c = Some oc) ->
  exists e, may e.
Proof.
  intros Es (c & Hc & Hf) Hr. destruct (Hr c Hf Hc) as [oc Ho]. eexists. unfold branches_may_end. rewrite Es. cbv zeta. exists c. split; [exact Hc|]. right. split; [exact Hf|].
  exists oc. split; [by apply returned_at|reflexivity].
Qed.
End Ends.
