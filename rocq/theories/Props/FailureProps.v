(** * C83: calls of Code when git fails *)
From Verif.Model Require Import Base GoStrings IncBlame LogParser ParentsGraph Process Msgp Checkpoint CheckpointFS CommitMeta FileInfo CodeInfo Net Pipeline GitBlame LogArgs Api.
From Verif.Spec Require Import Text UnifiedDiff Attribution GitLog CommitGraph History Processing Records MetaLog EndToEnd Delivery Selection Porcelain GitAnswers Continuing Failing.
From Verif.Proofs Require Import TextLemmas ParentsGraphProofs SelectionProofs ProcessExamples CheckpointExamples PipelineProofs PipelineMore ApiProofs IncrementalProofs FailureProofs.
From Verif.Props Require Import MetaProps PipelineProps EndToEndProps SelectionProps ApiProps.
From Coq Require Import Lia.

(** C83: whatever commands of git fail, and whether or not the temporary files can be made: a full call of Code that starts its goroutines
    ends in every schedule; what the caller receives are the right records of the first commits, and if the call returns without an error, of all
    of them.

    Partial: the restrictions of [usable] (as in C77); and the property also asks that a failed command makes the call return an error, which is
    false where the program ends with a panic (below). *)
Theorem C83_never_silent_partial {T L} (zt : T) parse_date (cl : classifiers L) count orders graph_order merge_orders skip disk write_err git git' tmp repo_dir o k R H about s :
  usable k parse_date R H about -> answers R H about git (if ro_all o then [B "--all"] else []) (if ro_all o then [B "--all"] else []) -> ro_from o = [] -> may_fail git git' ->
  (forall n, any_perm (orders n)) -> (forall g, graph_order g ≡ₚ map_to_list g) -> (forall c, any_orders (merge_orders c)) -> detector_works cl ->
  code_setup zt parse_date graph_order git' tmp repo_dir o = Ret s ->
  exists cs xs, lists_exactly cs (selected R (ro_all o)) /\ children_last (g_parents R) cs /\
    Forall2 (commit_records_right H (fallback git) (line_right (map about cs))) cs xs /\
    never_silent (api_act zt cl count orders merge_orders skip disk write_err git' o s) (concat xs).
Proof.
  intros HU HA Hfrom HM Hord Hgo Hmo Hdet Es.
  assert (Er : patch_revs o = if ro_all o then [B "--all"] else []) by (unfold patch_revs, log_revs; cbn [process_opts po_from po_all]; rewrite Hfrom, decide_False by tauto; done).
  assert (Hsh : forall c, shows R (patch_revs o) c <-> selected R (ro_all o) c) by (intros c; by apply C68_full_run).
  destruct (call_failing (L := L) zt parse_date graph_order merge_orders git git' HM tmp repo_dir o k R H about HU ltac:(rewrite Er; exact HA) Hgo Hmo
    (fun c => proj1 (Hsh c)) ∅ ltac:(intros c fs Hc; by rewrite lookup_empty in Hc)) with (cl := cl) (count := count) (orders := orders) (skip := skip) (disk := disk) (write_err := write_err) (s' := s)
    as (cs & xs & Hcs & Hrest); [|exact Hord|exact Hdet|unfold init_checkpoints; by rewrite decide_True by exact Hfrom|exact Es|].
  { intros c q Hc Hp Hq. exfalso. apply Hq, Hsh. apply (selected_closed parse_date o k R H about HU c q); [by apply Hsh|exact Hp]. }
  rewrite decide_True in Hrest by done. exists cs, xs. split; [|exact Hrest].
  destruct Hcs as [H1 H2]. split; [exact H1|]. intros x. by rewrite H2, Hsh.
Qed.
Print Assumptions C83_never_silent_partial.

(** The same for a call that goes on from a checkpoint (as C82). *)
Theorem C83_incremental_never_silent_partial {T L} (zt : T) parse_date (cl : classifiers L) count orders graph_order merge_orders skip disk write_err git git' tmp repo_dir o k R H about p P0 s :
  usable k parse_date R H about -> answers R H about git (if ro_all o then [B "--all"] else []) [range_of o] -> may_fail git git' ->
  Selection.simple_name (ro_from o) -> starts_after R o p ->
  read_checkpoint skip disk (if ro_nostrict o then [] else ro_from o) = Ret P0 -> checkpoint_right H (fallback git) (values P0) ->
  (forall c q, since R p c -> parent (g_parents R) c q -> reaches (g_parents R) p q -> is_Some (values P0 !! q)) ->
  (forall n, any_perm (orders n)) -> (forall g, graph_order g ≡ₚ map_to_list g) -> (forall c, any_orders (merge_orders c)) -> detector_works cl ->
  code_setup zt parse_date graph_order git' tmp repo_dir o = Ret s ->
  exists cs xs, lists_exactly cs (since R p) /\ children_last (g_parents R) cs /\
    Forall2 (commit_records_right H (fallback git) (line_since zt (map about cs))) cs xs /\
    never_silent (api_act zt cl count orders merge_orders skip disk write_err git' o s) (concat xs).
Proof.
  intros HU HA HM Hn (f & Hf & Hp) HP0 Hr0 Hpres Hord Hgo Hmo Hdet Es.
  assert (Hne : ro_from o <> []) by apply Hn.
  assert (Er : patch_revs o = [range_of o]).
  { unfold patch_revs, log_revs, range_of. cbn [process_opts po_from po_all po_refs po_nonincl]. rewrite decide_True by done. by destruct (ro_all o), (ro_nonincl o). }
  assert (Hsh : forall c, shows R (patch_revs o) c <-> since R p c).
  { intros c. destruct (ro_nonincl o) eqn:Hi; [rewrite Hp; by apply (C68_incremental_without_it R o f)|]. destruct Hp as [ps Hp]. by apply (C68_incremental R o f p ps). }
  pose proof (us_same _ _ _ _ _ HU) as Hsame.
  destruct (call_failing (L := L) zt parse_date graph_order merge_orders git git' HM tmp repo_dir o k R H about HU ltac:(rewrite Er; exact HA) Hgo Hmo) with
    (r0 := values P0) (cl := cl) (count := count) (orders := orders) (skip := skip) (disk := disk) (write_err := write_err) (s' := s)
    as (cs & xs & Hcs & Hlast & HF & Hrest).
  - intros c Hc. apply Hsh in Hc as [Hc _]. exists (g_head R). split; [by left|exact Hc].
  - exact Hr0.
  - intros c q Hc Hq Hnq. rewrite Hsame in Hq. apply Hsh in Hc. destruct (values P0 !! q) as [fs|] eqn:Eq; [by eexists|]. exfalso. apply Hnq, Hsh. destruct Hc as [Hc Hpc].
    split; [by eapply rtc_r|]. intros Hr. destruct (Hpres c q (conj Hc Hpc) Hq Hr) as [fs Hfs]. by rewrite Eq in Hfs.
  - exact Hord.
  - exact Hdet.
  - unfold init_checkpoints. cbn [process_opts po_from po_nostrict]. rewrite decide_False by done. by rewrite HP0.
  - exact Es.
  - exists cs, xs. split; [destruct Hcs as [H1 H2]; split; [exact H1|]; intros x; by rewrite H2, Hsh|]. split; [exact Hlast|]. split; [|exact Hrest].
    destruct (decide (values P0 = ∅)); [|exact HF]. eapply Forall2_impl; [exact HF|]. intros c rs. apply records_mono. intros l bl Hl. by left.
Qed.
Print Assumptions C83_incremental_never_silent_partial.

(** If the head cannot be read, or a temporary file cannot be made, the call returns an error and the caller receives nothing. *)
Theorem C83_error_returned {T L} (zt : T) parse_date (cl : classifiers L) count orders graph_order merge_orders skip disk write_err git tmp repo_dir o :
  fails git [B "rev-parse"; B "HEAD"] ->
  exists s e, code_setup zt parse_date graph_order git tmp repo_dir o = Ret s /\
  let act := api_act zt cl count orders merge_orders skip disk write_err git o s in
  (exists n, forall m c, nsteps (step act) m code_call c -> m <= n) /\
  forall c, rtc (step act) code_call c -> ~ crashing act c /\ received c = [] /\ (final act c -> all_ended c /\ c_res ∈ closed c /\ returned c = Some (Err e, None)).
Proof.
  intros Hf. destruct (Hf NoContext) as [x Hx]. unfold code_setup, prepare, head_id. rewrite Hx. eexists _, _. split; [reflexivity|]. cbv zeta. unfold api_act. cbn [su_prep_err su_log_err].
  apply C54_early_error. left. reflexivity.
Qed.
Print Assumptions C83_error_returned.
Theorem C83_no_temporary_file {T L} (zt : T) parse_date (cl : classifiers L) count orders graph_order merge_orders skip disk write_err git tmp repo_dir o k R H about x :
  usable k parse_date R H about -> answers R H about git (if ro_all o then [B "--all"] else []) (if ro_all o then [B "--all"] else []) -> ro_from o = [] ->
  tmp 0 = Err x \/ (exists f, tmp 0 = Ret f) /\ tmp 1 = Err x ->
  exists s, code_setup zt parse_date graph_order git tmp repo_dir o = Ret s /\
  let act := api_act zt cl count orders merge_orders skip disk write_err git o s in
  (exists n, forall m c, nsteps (step act) m code_call c -> m <= n) /\
  forall c, rtc (step act) code_call c -> ~ crashing act c /\ received c = [] /\ (final act c -> all_ended c /\ c_res ∈ closed c /\ returned c = Some (Err x, None)).
Proof.
  intros HU HA Hfrom Ht.
  assert (Er : patch_revs o = if ro_all o then [B "--all"] else []) by (unfold patch_revs, log_revs; cbn [process_opts po_from po_all]; rewrite Hfrom, decide_False by tauto; done).
  set (tmp0 := fun n => match tmp n with Ret f => Ret f | _ => Ret [] end).
  assert (Ht0 : forall n, exists f, tmp0 n = Ret f) by (intros n; unfold tmp0; destruct (tmp n); by eexists).
  destruct (Ht0 0) as [f0 E0], (Ht0 1) as [f1 E1].
  destruct (call_setup zt parse_date graph_order git tmp0 repo_dir o k R H about HU ltac:(rewrite Er; exact HA) f0 f1 E0 E1 ltac:(intros c; by apply C68_full_run)) as (s & csg & cs & csm & ls & Es & Ep & El & _).
  unfold code_setup in Es. destruct (prepare git repo_dir) as [[]|y|y] eqn:Epr; cbn [obind] in Es; [|injection Es as <-; discriminate Ep|discriminate].
  destruct (read_graph graph_order git o) as [g|y|y] eqn:Eg; cbn [obind] in Es; [|injection Es as <-; discriminate Ep|discriminate].
  destruct Ht as [Ht|[[f Hf] Ht]].
  - exists (Setup (∅, ∅) ∅ [] (Some x) None). split; [unfold code_setup; rewrite Epr; cbn [obind]; rewrite Eg; cbn [obind]; unfold commit_info; by rewrite Ht|]. cbv zeta. unfold api_act. cbn [su_prep_err su_log_err].
    apply C54_early_error. left. reflexivity.
  - assert (Ec : commit_info zt parse_date git tmp o = commit_info zt parse_date git tmp0 o) by (unfold commit_info, tmp0; by rewrite Hf).
    destruct (commit_info zt parse_date git tmp0 o) as [m|y|y]; cbn [obind] in Es; [|injection Es as <-; discriminate Ep|discriminate].
    exists (Setup g m [] None (Some x)). split; [unfold code_setup; rewrite Epr; cbn [obind]; rewrite Eg; cbn [obind]; rewrite Ec; cbn [obind]; unfold patch_log; by rewrite Ht|]. cbv zeta. unfold api_act. cbn [su_prep_err su_log_err].
    apply C54_early_error. right. split; reflexivity.
Qed.
Print Assumptions C83_no_temporary_file.

(** A failed command makes the call return an error: this is false of the three logs; if one of them fails the program ends with a panic. *)
Definition log_commands (f0 f1 : bytes) (revs : list bytes) : list (list bytes) :=
  [[B "log"; B "-m"; B "--reverse"; B "--no-abbrev-commit"; B "--pretty=format:%H@%P"] ++ revs;
   [B "-c"; B "core.attributesFile=" ++ f0; B "-c"; B "diff.renameLimit=10000"; B "log"; B "-c"; B "--raw"; B "--reverse"; B "--numstat";
    B "--pretty=format:!SHA: %H%n!Parents: %P%n!Committer: %ce%n!CName: %cn%n!Author: %ae%n!AName: %an%n!Date: %aI%n!Message: %s%n"] ++ revs;
   [B "-c"; B "core.attributesFile=" ++ f1; B "-c"; B "diff.renameLimit=10000"; B "log"; B "-p"; B "-m"; B "--date-order";
    B "--reverse"; B "--no-abbrev-commit"; B "--pretty=short"] ++ revs].
Theorem C83_failed_log_refuted {T} (zt : T) parse_date graph_order git git' tmp repo_dir o k R H about f0 f1 cmd :
  usable k parse_date R H about -> answers R H about git (if ro_all o then [B "--all"] else []) (if ro_all o then [B "--all"] else []) -> ro_from o = [] ->
  tmp 0 = Ret f0 -> tmp 1 = Ret f1 -> may_fail git git' -> (forall x, git' x [B "rev-parse"; B "HEAD"] = git x [B "rev-parse"; B "HEAD"]) ->
  cmd ∈ log_commands f0 f1 (if ro_all o then [B "--all"] else []) -> fails git' cmd ->
  exists m, code_setup zt parse_date graph_order git' tmp repo_dir o = Panic m.
Proof.
  intros HU HA Hfrom Ht0 Ht1 HM Hh Hcmd Hf.
  assert (Er : patch_revs o = if ro_all o then [B "--all"] else []) by (unfold patch_revs, log_revs; cbn [process_opts po_from po_all]; rewrite Hfrom, decide_False by tauto; done).
  destruct (call_setup zt parse_date graph_order git tmp repo_dir o k R H about HU ltac:(rewrite Er; exact HA) f0 f1 Ht0 Ht1 ltac:(intros c; by apply C68_full_run)) as (s & csg & cs & csm & ls & Es & Ep & El & _).
  assert (Eq : prepare git' repo_dir = prepare git repo_dir) by (unfold prepare, head_id; by rewrite Hh).
  unfold code_setup in *. rewrite Eq. destruct (prepare git repo_dir) as [[]|y|y]; cbn [obind] in *; [|injection Es as <-; discriminate Ep|discriminate].
  unfold read_graph, exec_piped in *. change (graph_log_args o) with ([B "log"; B "-m"; B "--reverse"; B "--no-abbrev-commit"; B "--pretty=format:%H@%P"] ++ (if ro_all o then [B "--all"] else [])) in *.
  destruct (HM Background ([B "log"; B "-m"; B "--reverse"; B "--no-abbrev-commit"; B "--pretty=format:%H@%P"] ++ (if ro_all o then [B "--all"] else []))) as [M1|[e M1]]; [|rewrite M1; by eexists].
  apply elem_of_cons in Hcmd as [->|Hcmd]; [destruct (Hf Background) as [e He]; rewrite He; by eexists|]. rewrite M1. clear M1.
  destruct (match git Background _ with Ret out => Ret out | Err x | Panic x => _ end) as [out|y|y]; cbn [obind] in *; [|injection Es as <-; discriminate Ep|discriminate].
  destruct (graph_read graph_order out) as [g|y|y]; cbn [obind] in *; [|injection Es as <-; discriminate Ep|discriminate].
  unfold commit_info, exec_piped in *. rewrite Ht0 in *. cbn [obind] in *. unfold metadata_log_args in *. rewrite (revs_same o), Er in *.
  match type of Es with context[git Background ?a] => destruct (HM Background a) as [M1|[e M1]]; [|rewrite M1; by eexists] end.
  apply elem_of_cons in Hcmd as [->|Hcmd]; [destruct (Hf Background) as [e He]; rewrite He; by eexists|]. rewrite M1. clear M1.
  destruct (match git Background _ with Ret out => Ret out | Err x | Panic x => _ end) as [out2|y|y]; cbn [obind] in *; [|injection Es as <-; discriminate Ep|discriminate].
  destruct (run_map zt parse_date out2).2 as [[]|y|y]; cbn [obind] in *; [|injection Es as <-; discriminate Ep|discriminate].
  apply elem_of_list_singleton in Hcmd as ->. unfold patch_log, exec_piped, patch_log_args. rewrite Ht1, Er. cbn [obind]. destruct (Hf Background) as [e He]. rewrite He. by eexists.
Qed.
Print Assumptions C83_failed_log_refuted.

(** An example: [q_repo] of C77, where some commands fail. *)
Definition q_failing (word : bytes) (x : bound) (args : list bytes) : outcome bytes := if bool_decide (word ∈ args) then Err (B "killed") else q_git x args.
Lemma q_fails word x args : word ∈ args -> q_failing word x args = Err (B "killed").
Proof. intros Hw. unfold q_failing. by rewrite bool_decide_true. Qed.
Lemma q_works word x args : word ∉ args -> q_failing word x args = q_git x args.
Proof. intros Hw. unfold q_failing. by rewrite bool_decide_false. Qed.
Local Ltac not_there := (intros Hx; repeat (apply elem_of_cons in Hx as [Hx|Hx]; [discriminate Hx|]); by apply elem_of_nil in Hx).
Lemma q_no_blame : code_setup 0%N any_date map_to_list (q_failing (B "blame")) (fun _ => Ret (B "tmp")) [] (ROpts [] false false false) =
  code_setup 0%N any_date map_to_list q_git (fun _ => Ret (B "tmp")) [] (ROpts [] false false false).
Proof.
  assert (E1 : prepare (q_failing (B "blame")) [] = prepare q_git []) by (unfold prepare, head_id; rewrite q_works by not_there; reflexivity).
  assert (E2 : read_graph map_to_list (q_failing (B "blame")) (ROpts [] false false false) = read_graph map_to_list q_git (ROpts [] false false false)).
  { unfold read_graph, exec_piped. rewrite q_works by not_there. reflexivity. }
  assert (E3 : commit_info 0%N any_date (q_failing (B "blame")) (fun _ => Ret (B "tmp")) (ROpts [] false false false) = commit_info 0%N any_date q_git (fun _ => Ret (B "tmp")) (ROpts [] false false false)).
  { unfold commit_info, exec_piped. cbn [obind]. rewrite q_works by not_there. reflexivity. }
  assert (E4 : patch_log (q_failing (B "blame")) (fun _ => Ret (B "tmp")) (ROpts [] false false false) = patch_log q_git (fun _ => Ret (B "tmp")) (ROpts [] false false false)).
  { unfold patch_log, exec_piped. cbn [obind]. rewrite q_works by not_there. reflexivity. }
  unfold code_setup. rewrite E1, E2, E3, E4. reflexivity.
Qed.
Example C83_hypotheses_hold :
  usable 3 any_date q_repo q_hist q_about /\ (forall word, may_fail q_git (q_failing word)) /\
  fails (q_failing (B "rev-parse")) [B "rev-parse"; B "HEAD"] /\
  (exists s, code_setup 0%N any_date map_to_list (q_failing (B "blame")) (fun _ => Ret (B "tmp")) [] (ROpts [] false false false) = Ret s) /\
  (exists m, code_setup 0%N any_date map_to_list (q_failing (B "-p")) (fun _ => Ret (B "tmp")) [] (ROpts [] false false false) = Panic m).
Proof.
  assert (HM : forall word, may_fail q_git (q_failing word)).
  { intros word x args. unfold q_failing. destruct (bool_decide _); [right; by eexists|by left]. }
  split; [exact q_usable|]. split; [exact HM|].
  split; [intros x; exists (B "killed"); apply q_fails; left|]. split.
  - destruct (call_setup 0%N any_date map_to_list q_git (fun _ => Ret (B "tmp")) [] (ROpts [] false false false) 3 q_repo q_hist q_about q_usable (q_answers false) (B "tmp") (B "tmp") eq_refl eq_refl ltac:(intros c; by apply C68_full_run)) as (s & _ & _ & _ & _ & Es & _).
    exists s. rewrite q_no_blame. exact Es.
  - apply (C83_failed_log_refuted 0%N any_date map_to_list q_git (q_failing (B "-p")) (fun _ => Ret (B "tmp")) [] (ROpts [] false false false) 3 q_repo q_hist q_about (B "tmp") (B "tmp")
      ([B "-c"; B "core.attributesFile=" ++ B "tmp"; B "-c"; B "diff.renameLimit=10000"; B "log"; B "-p"; B "-m"; B "--date-order"; B "--reverse"; B "--no-abbrev-commit"; B "--pretty=short"] ++ [])
      q_usable (q_answers false) eq_refl eq_refl eq_refl (HM _)).
    + intros x. apply q_works. not_there.
    + right. right. left.
    + intros x. exists (B "killed"). apply q_fails. do 5 right. left.
Qed.
