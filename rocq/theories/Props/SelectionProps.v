(** * C67, C68: which commits the logs of a run show *)
From Verif.Model Require Import Base GoStrings ParentsGraph CheckpointFS CommitMeta LogArgs.
From Verif.Spec Require Import Text CommitGraph Selection.
From Verif.Proofs Require Import SelectionProofs.
From stdpp Require Import relations.
From Coq Require Import Lia.

Section Selection.
Context (R : gitrepo).
Notation reaches := (reaches (g_parents R)).

(** C67: the log of the patches and the log of the metadata show the same commits, and are errors together. *)
Theorem C67_patches_and_metadata o c : (shows R (patch_revs o) c <-> shows R (metadata_revs o) c) /\ (is_error R (patch_revs o) <-> is_error R (metadata_revs o)).
Proof.
  assert (E : patch_revs o = metadata_revs o); [|by rewrite E].
  unfold patch_revs, metadata_revs, log_revs, meta_args. cbn [process_opts po_from po_all po_refs po_nonincl]. destruct (ro_from o) as [|x s]; [done|]. cbn [beq]. rewrite decide_True by done. by destruct (ro_nonincl o).
Qed.
(** The graph of the commits has every commit of these logs, so every commit that is processed is known with its parents. *)
Theorem C67_graph_has_them o c : ro_from o = [] \/ simple_name (ro_from o) -> shows R (patch_revs o) c ->
  shows R (graph_revs o) c /\ forall p, parent (g_parents R) c p -> shows R (graph_revs o) p.
Proof.
  intros Hf Hs. assert (Hg : forall x, shows R (graph_revs o) x <-> exists y, (y = g_head R \/ (ro_all o = true /\ y ∈ g_tips R)) /\ reaches y x).
  { intros x. unfold graph_revs. destruct (ro_all o).
    - rewrite shows_all. split; intros (y & Hy & Hr); exists y; (split; [|done]); tauto.
    - rewrite shows_head. split; [intros; exists (g_head R); split; [by left|done]|]. intros (y & [->|[? _]] & Hr); done. }
  assert (Hr : exists y, (y = g_head R \/ (ro_all o = true /\ y ∈ g_tips R)) /\ reaches y c).
  { unfold patch_revs, log_revs in Hs. cbn [process_opts po_from po_all po_refs po_nonincl] in Hs. destruct Hf as [E|Hn].
    - rewrite E in Hs. rewrite decide_False in Hs by tauto. apply Hg. exact Hs.
    - destruct Hn as (Hne & Hc & Hd & Hl & Ha). rewrite decide_True in Hs by done. unfold wanted_refs in Hs. assert (Hs' : shows R [ro_from o ++ if ro_nonincl o then B "..HEAD" else B "^..HEAD"] c) by (by destruct (ro_all o)).
      clear Hs. destruct (ro_nonincl o).
      + apply shows_range in Hs' as (x & _ & Hr & _); [|done..]. exists (g_head R). split; [by left|done].
      + change (B "^..HEAD") with (B "^" ++ B "..HEAD") in Hs'. rewrite app_assoc in Hs'. destruct (caret_dots _ Hd Hl). apply shows_range in Hs' as (x & _ & Hr & _); [|done..]. exists (g_head R). split; [by left|done]. }
  rewrite Hg. split; [done|]. intros p Hp. rewrite Hg. destruct Hr as (y & Hy & Hr). exists y. split; [done|]. eapply rtc_r; [exact Hr|exact Hp].
Qed.

(** C68: a full run shows what is reachable from HEAD, with AllBranches what is reachable from HEAD or any ref. *)
Theorem C68_full_run o c : ro_from o = [] ->
  shows R (patch_revs o) c <-> exists x, (x = g_head R \/ (ro_all o = true /\ x ∈ g_tips R)) /\ reaches x c.
Proof.
  intros E. unfold patch_revs, log_revs. cbn [process_opts po_from po_all po_refs po_nonincl]. rewrite E, decide_False by tauto. destruct (ro_all o).
  - rewrite shows_all. split; intros (y & Hy & Hr); exists y; (split; [|done]); tauto.
  - rewrite shows_head. split; [intros; exists (g_head R); split; [by left|done]|]. intros (y & [->|[? _]] & Hr); done.
Qed.
(** An incremental run from [f], whose first parent is [p], shows what is reachable from HEAD but not from [p]. *)
Theorem C68_incremental o f p ps c : simple_name (ro_from o) -> named R (ro_from o) = Some f -> g_parents R !! f = Some (p :: ps) -> ro_nonincl o = false ->
  shows R (patch_revs o) c <-> reaches (g_head R) c /\ ~ reaches p c.
Proof.
  intros Hn Hf Hp Hi. assert (Hn' := Hn). destruct Hn' as (Hne & Hc & Hd & Hl & Ha). assert (E : patch_revs o = [(ro_from o ++ B "^") ++ B "..HEAD"]).
  { unfold patch_revs, log_revs. cbn [process_opts po_from po_all po_refs po_nonincl]. rewrite decide_True, Hi by done. rewrite <- app_assoc. by destruct (ro_all o). }
  rewrite E. destruct (caret_dots _ Hd Hl). rewrite shows_range by done. split.
  - intros (x & Hx & Hr & Hnr). apply rev_first_inv in Hx as (c' & ps' & Hc' & Hp'); [|done]. rewrite Hf in Hc'. injection Hc' as <-. rewrite Hp in Hp'. injection Hp' as <- _. done.
  - intros [H1 H2]. exists p. split; [|done]. eapply rev_first; [constructor; [exact Hn|exact Hf]|exact Hp].
Qed.
(** With CommitFromMakeNonIncl: what is reachable from HEAD but not from [f]. *)
Theorem C68_incremental_without_it o f c : simple_name (ro_from o) -> named R (ro_from o) = Some f -> ro_nonincl o = true ->
  shows R (patch_revs o) c <-> reaches (g_head R) c /\ ~ reaches f c.
Proof.
  intros Hn Hf Hi. assert (Hn' := Hn). destruct Hn' as (Hne & Hc & Hd & Hl & Ha). assert (E : patch_revs o = [ro_from o ++ B "..HEAD"]).
  { unfold patch_revs, log_revs. cbn [process_opts po_from po_all po_refs po_nonincl]. rewrite decide_True, Hi by done. by destruct (ro_all o). }
  rewrite E. rewrite shows_range by done. split.
  - intros (x & Hx & Hr & Hnr). apply rev_name_inv in Hx; [|done]. rewrite Hf in Hx. by injection Hx as <-.
  - intros [H1 H2]. exists f. split; [|done]. constructor; [exact Hn|exact Hf].
Qed.
(** So it shows [f] itself and everything on HEAD that descends from it, and a parent that is not shown is an ancestor of [p] (or [p]). *)
Theorem C68_covers_descendants o f p ps d : acyclic (g_parents R) -> simple_name (ro_from o) -> named R (ro_from o) = Some f -> g_parents R !! f = Some (p :: ps) -> ro_nonincl o = false ->
  reaches (g_head R) d -> reaches d f -> shows R (patch_revs o) d.
Proof.
  intros Ha Hn Hf Hp Hi Hd Hdf. apply (C68_incremental o f p ps d); [done..|]. split; [done|]. intros Hpd. apply (Ha f). unfold ancestor.
  eapply tc_rtc_r; [apply tc_once|etrans; [exact Hpd|exact Hdf]]. unfold parent, parents. rewrite Hp. by left.
Qed.
Theorem C68_parents_shown o f p ps c q : simple_name (ro_from o) -> named R (ro_from o) = Some f -> g_parents R !! f = Some (p :: ps) -> ro_nonincl o = false ->
  shows R (patch_revs o) c -> parent (g_parents R) c q -> ~ reaches p q -> shows R (patch_revs o) q.
Proof.
  intros Hn Hf Hp Hi Hc Hq Hnr. apply (C68_incremental o f p ps) in Hc as [H1 H2]; [|done..].
  apply (C68_incremental o f p ps); [done..|]. split; [|done]. eapply rtc_r; [exact H1|exact Hq].
Qed.
(** C68 is false if [f] has no parent: git refuses the arguments, which makes the program crash (C62). *)
Theorem C68_root_refuted o f : simple_name (ro_from o) -> named R (ro_from o) = Some f -> g_parents R !! f = Some [] -> ro_nonincl o = false ->
  is_error R (patch_revs o).
Proof.
  intros Hn Hf Hp Hi. assert (Hn' := Hn). destruct Hn' as (Hne & Hc & Hd & Hl & Ha). assert (E : patch_revs o = [(ro_from o ++ B "^") ++ B "..HEAD"]).
  { unfold patch_revs, log_revs. cbn [process_opts po_from po_all po_refs po_nonincl]. rewrite decide_True, Hi by done. rewrite <- app_assoc. by destruct (ro_all o). }
  intros pos neg Hm. rewrite E in Hm. rewrite decide_False in Hm by done. destruct (caret_dots _ Hd Hl). apply one_arg, range_inv in Hm as (x & Hx & _); [|done..].
  apply rev_first_inv in Hx as (c' & ps' & Hc' & Hp'); [|done]. rewrite Hf in Hc'. injection Hc' as <-. by rewrite Hp in Hp'.
Qed.
(** C68 is false for AllBranches: an incremental run shows nothing that only another branch has. *)
Theorem C68_other_branches_refuted o c : simple_name (ro_from o) -> ~ reaches (g_head R) c -> ~ shows R (patch_revs o) c.
Proof.
  intros Hn Hnr Hs. destruct Hn as (Hne & Hc & Hd & Hl & Ha). unfold patch_revs, log_revs in Hs. cbn [process_opts po_from po_all po_refs po_nonincl] in Hs. rewrite decide_True in Hs by done.
  unfold wanted_refs in Hs. assert (Hs' : shows R [ro_from o ++ if ro_nonincl o then B "..HEAD" else B "^..HEAD"] c) by (by destruct (ro_all o)).
  clear Hs. destruct (ro_nonincl o).
  + apply shows_range in Hs' as (x & _ & Hr & _); done.
  + change (B "^..HEAD") with (B "^" ++ B "..HEAD") in Hs'. rewrite app_assoc in Hs'. destruct (caret_dots _ Hd Hl). apply shows_range in Hs' as (x & _ & Hr & _); done.
Qed.
End Selection.
Print Assumptions C67_patches_and_metadata.
Print Assumptions C67_graph_has_them.
Print Assumptions C68_full_run.
Print Assumptions C68_incremental.
Print Assumptions C68_incremental_without_it.
Print Assumptions C68_covers_descendants.
Print Assumptions C68_parents_shown.
Print Assumptions C68_root_refuted.
Print Assumptions C68_other_branches_refuted.

(** ** A repository: a1 <- b2 <- d4 (HEAD), a1 <- c3 <- d4, and a branch e5 on b2 *)
Definition sel_repo : gitrepo :=
  GitRepo {[ B "a1" := []; B "b2" := [B "a1"]; B "c3" := [B "a1"]; B "d4" := [B "b2"; B "c3"]; B "e5" := [B "b2"] ]} [B "d4"; B "e5"] (B "d4")
    (fun n => if decide (n ∈ [B "a1"; B "b2"; B "c3"; B "d4"; B "e5"]) then Some n else None).
Example C68_hypotheses_hold : simple_name (B "b2") /\ named sel_repo (B "b2") = Some (B "b2") /\ g_parents sel_repo !! B "b2" = Some [B "a1"] /\
  named sel_repo (B "a1") = Some (B "a1") /\ g_parents sel_repo !! B "a1" = Some [].
Proof.
  split; [|split; [vm_compute; reflexivity|split; [vm_compute; reflexivity|split; vm_compute; reflexivity]]].
  split; [done|]. split; [by apply (bool_decide_unpack _)|]. split; [apply no_dots_notin; by apply (bool_decide_unpack _)|]. split; [|done].
  intros u E. change (B ".") with ["."%char] in E. apply (f_equal last) in E. rewrite last_snoc in E. discriminate E.
Qed.
(** Incremental from b2: c3 (not an ancestor of b2) is shown as well, the branch e5 is not. *)
Example C68_example o : o = ROpts (B "b2") false false true ->
  shows sel_repo (patch_revs o) (B "b2") /\ shows sel_repo (patch_revs o) (B "c3") /\ shows sel_repo (patch_revs o) (B "d4") /\
  ~ shows sel_repo (patch_revs o) (B "a1") /\ ~ shows sel_repo (patch_revs o) (B "e5").
Proof.
  intros ->. destruct C68_hypotheses_hold as (H1 & H2 & H3 & _).
  assert (Hinc := fun c => C68_incremental sel_repo (ROpts (B "b2") false false true) (B "b2") (B "a1") [] c H1 H2 H3 eq_refl).
  assert (Ha : forall x, reaches (g_parents sel_repo) (B "a1") x -> x = B "a1").
  { intros x Hx. inversion Hx as [|? y ? Hy _]; subst; [done|]. unfold parent, parents in Hy. by apply elem_of_nil in Hy. }
  assert (Hd : forall x y, parent (g_parents sel_repo) x y -> y ∈ [B "a1"; B "b2"; B "c3"]).
  { intros x y Hy. unfold parent, parents in Hy. destruct (g_parents sel_repo !! x) as [ps|] eqn:E; [|by apply elem_of_nil in Hy]. cbn [default] in Hy. unfold sel_repo in E. cbn [g_parents] in E.
    repeat (apply lookup_insert_Some in E as [[_ <-]|[_ E]]; [revert y Hy; apply Forall_forall; repeat (constructor; [by apply (bool_decide_unpack _)|]); constructor|]).
    apply lookup_singleton_Some in E as [_ <-]. revert y Hy. apply Forall_forall. repeat (constructor; [by apply (bool_decide_unpack _)|]); constructor. }
  assert (Hdb : parent (g_parents sel_repo) (B "d4") (B "b2")) by (change (B "b2" ∈ [B "b2"; B "c3"]); by apply (bool_decide_unpack _)).
  assert (Hdc : parent (g_parents sel_repo) (B "d4") (B "c3")) by (change (B "c3" ∈ [B "b2"; B "c3"]); by apply (bool_decide_unpack _)).
  split; [apply Hinc; split; [by apply rtc_once|intros H; by apply Ha in H]|].
  split; [apply Hinc; split; [by apply rtc_once|intros H; by apply Ha in H]|].
  split; [apply Hinc; split; [apply rtc_refl|intros H; by apply Ha in H]|].
  split; [intros H; apply Hinc in H as [_ H]; apply H, rtc_refl|].
  intros H. apply Hinc in H as [H _]. apply rtc_inv_r in H as [?|(z & _ & Hz)]; [done|]. apply Hd in Hz. revert Hz. by apply (bool_decide_unpack _).
Qed.
