(** * C85: CodeByCommit on a repository *)
From Verif.Model Require Import Base GoStrings IncBlame LogParser ParentsGraph Process Msgp Checkpoint CheckpointFS CommitMeta FileInfo CodeInfo Net Pipeline GitBlame LogArgs Api Callers ApiByCommit.
From Verif.Spec Require Import Text UnifiedDiff Attribution GitLog CommitGraph History Processing Checkpoint Resuming Records MetaLog EndToEnd Delivery Selection Porcelain GitAnswers Continuing Callers ByCommit.
From Verif.Proofs Require Import TextLemmas SelectionProofs ProcessExamples CheckpointExamples CheckpointProofs RecordProofs RecordMore EndToEndProofs EndToEndRun CallersProofs ApiProofs IncrementalProofs ByCommitProofs.
From Verif.Props Require Import MetaProps ProcessProps RecordProps PipelineProps EndToEndProps SelectionProps ApiProps IncrementalProps.

(** C85: for every repository, every git that answers as documented and every order of maps: there are commits [ys], one for each commit of
    HEAD's history (or of all refs), parents first, each with what git says about it, numbered from 1 on in some order, and with exactly the right records, such that every caller
    that reads everything receives exactly them in every schedule, the call neither crashes nor waits for ever, the channel is closed and the
    call returns; and a caller that leaves anything unread waits for ever.  A caller that starts a goroutine for each commit (of [k] it can start) gets
    the same commits, and each goroutine exactly the records of its commit.  A call of Code delivers the same records in the same order.

    Partial: the restrictions of [usable] (as in C77). *)
Theorem C85_code_by_commit_partial {T L} (zt : T) parse_date (cl : classifiers L) count orders graph_order merge_orders skip disk write_err git tmp repo_dir o k R H about f0 f1 :
  usable k parse_date R H about -> answers R H about git (if ro_all o then [B "--all"] else []) (if ro_all o then [B "--all"] else []) -> ro_from o = [] -> tmp 0 = Ret f0 -> tmp 1 = Ret f1 ->
  (forall n, any_perm (orders n)) -> (forall g, graph_order g ≡ₚ map_to_list g) -> (forall c, any_orders (merge_orders c)) -> detector_works cl ->
  exists s, code_setup zt parse_date graph_order git tmp repo_dir o = Ret s /\
  let act := api_by_commit_act zt cl count orders merge_orders skip disk write_err git o s in
  exists cs ys w, lists_exactly cs (selected R (ro_all o)) /\ children_last (g_parents R) cs /\
    Forall2 (commit_delivered H (fallback git) (line_right (map about cs)) about) cs ys /\ numbered ys /\
    leaves_checkpoint H (fallback git) ∅ cs w /\
    (forall want quit, reads_all want quit ys -> delivers_commits (act want quit) (api_by_commit_call s quit) write_err ys w) /\
    (forall want quit, ~ reads_all want quit ys -> never_returns (act want quit) (api_by_commit_call s quit)) /\
    (forall k, length ys <= k -> delivers_to_readers (api_readers_act zt cl count orders merge_orders skip disk write_err git o s) (api_readers_call s k) write_err ys w) /\
    delivers (api_act zt cl count orders merge_orders skip disk write_err git o s) write_err (concat (map snd ys)) w.
Proof.
  intros HU HA Hfrom Ht0 Ht1 Hord Hgo Hmo Hdet.
  assert (Er : patch_revs o = if ro_all o then [B "--all"] else []) by (unfold patch_revs, log_revs; cbn [process_opts po_from po_all]; rewrite Hfrom, decide_False by tauto; done).
  assert (Hsh : forall c, shows R (patch_revs o) c <-> selected R (ro_all o) c) by (intros c; by apply C68_full_run).
  destruct (call_commits (L := L) zt parse_date graph_order merge_orders git tmp repo_dir o k R H about HU ltac:(rewrite Er; exact HA) f0 f1 Ht0 Ht1 Hgo Hmo
    (fun c => proj1 (Hsh c)) ∅ ltac:(intros c fs Hc; by rewrite lookup_empty in Hc)) with (cl := cl) (count := count) (orders := orders) (skip := skip) (disk := disk) (write_err := write_err)
    as (s & Es & cs & ys & w & Hcs & Hrest); [|exact Hord|exact Hdet|unfold init_checkpoints; by rewrite decide_True by exact Hfrom|].
  { intros c q Hc Hp Hq. exfalso. apply Hq, Hsh. apply (selected_closed parse_date o k R H about HU c q); [by apply Hsh|exact Hp]. }
  rewrite decide_True in Hrest by done. exists s. split; [exact Es|]. cbv zeta. exists cs, ys, w. split; [|exact Hrest].
  destruct Hcs as [H1 H2]. split; [exact H1|]. intros x. by rewrite H2, Hsh.
Qed.
Print Assumptions C85_code_by_commit_partial.

(** The same for a call that goes on from a checkpoint (as C82): the commits after [p]. *)
Theorem C85_incremental_partial {T L} (zt : T) parse_date (cl : classifiers L) count orders graph_order merge_orders skip disk write_err git tmp repo_dir o k R H about t0 t1 p P0 :
  usable k parse_date R H about -> answers R H about git (if ro_all o then [B "--all"] else []) [range_of o] ->
  Selection.simple_name (ro_from o) -> starts_after R o p ->
  read_checkpoint skip disk (if ro_nostrict o then [] else ro_from o) = Ret P0 -> checkpoint_right H (fallback git) (values P0) ->
  (forall c q, since R p c -> parent (g_parents R) c q -> reaches (g_parents R) p q -> is_Some (values P0 !! q)) ->
  tmp 0 = Ret t0 -> tmp 1 = Ret t1 ->
  (forall n, any_perm (orders n)) -> (forall g, graph_order g ≡ₚ map_to_list g) -> (forall c, any_orders (merge_orders c)) -> detector_works cl ->
  exists s, code_setup zt parse_date graph_order git tmp repo_dir o = Ret s /\
  let act := api_by_commit_act zt cl count orders merge_orders skip disk write_err git o s in
  exists cs ys w, lists_exactly cs (since R p) /\ children_last (g_parents R) cs /\
    Forall2 (commit_delivered H (fallback git) (line_since zt (map about cs)) about) cs ys /\ numbered ys /\
    leaves_checkpoint H (fallback git) (values P0) cs w /\
    (forall want quit, reads_all want quit ys -> delivers_commits (act want quit) (api_by_commit_call s quit) write_err ys w) /\
    (forall want quit, ~ reads_all want quit ys -> never_returns (act want quit) (api_by_commit_call s quit)) /\
    (forall k, length ys <= k -> delivers_to_readers (api_readers_act zt cl count orders merge_orders skip disk write_err git o s) (api_readers_call s k) write_err ys w) /\
    delivers (api_act zt cl count orders merge_orders skip disk write_err git o s) write_err (concat (map snd ys)) w.
Proof.
  intros HU HA Hn (f & Hf & Hp) HP0 Hr0 Hpres Ht0 Ht1 Hord Hgo Hmo Hdet.
  assert (Hne : ro_from o <> []) by apply Hn.
  assert (Er : patch_revs o = [range_of o]).
  { unfold patch_revs, log_revs, range_of. cbn [process_opts po_from po_all po_refs po_nonincl]. rewrite decide_True by done. by destruct (ro_all o), (ro_nonincl o). }
  assert (Hsh : forall c, shows R (patch_revs o) c <-> since R p c).
  { intros c. destruct (ro_nonincl o) eqn:Hi; [rewrite Hp; by apply (C68_incremental_without_it R o f)|]. destruct Hp as [ps Hp]. by apply (C68_incremental R o f p ps). }
  pose proof (us_same _ _ _ _ _ HU) as Hsame.
  destruct (call_commits (L := L) zt parse_date graph_order merge_orders git tmp repo_dir o k R H about HU ltac:(rewrite Er; exact HA) t0 t1 Ht0 Ht1 Hgo Hmo) with
    (r0 := values P0) (cl := cl) (count := count) (orders := orders) (skip := skip) (disk := disk) (write_err := write_err)
    as (s & Es & cs & ys & w & Hcs & Hlast & HF & Hrest).
  - intros c Hc. apply Hsh in Hc as [Hc _]. exists (g_head R). split; [by left|exact Hc].
  - exact Hr0.
  - intros c q Hc Hq Hnq. rewrite Hsame in Hq. apply Hsh in Hc. destruct (values P0 !! q) as [fs|] eqn:Eq; [by eexists|]. exfalso. apply Hnq, Hsh. destruct Hc as [Hc Hpc].
    split; [by eapply rtc_r|]. intros Hr. destruct (Hpres c q (conj Hc Hpc) Hq Hr) as [fs Hfs]. by rewrite Eq in Hfs.
  - exact Hord.
  - exact Hdet.
  - unfold init_checkpoints. cbn [process_opts po_from po_nostrict]. rewrite decide_False by done. by rewrite HP0.
  - exists s. split; [exact Es|]. cbv zeta. exists cs, ys, w. split; [destruct Hcs as [H1 H2]; split; [exact H1|]; intros x; by rewrite H2, Hsh|]. split; [exact Hlast|]. split; [|exact Hrest].
    destruct (decide (values P0 = ∅)); [|exact HF]. eapply Forall2_impl; [exact HF|]. intros c y [Hm [Hr Hs]]. split; [exact Hm|]. split; [|exact Hs]. revert Hr. apply records_mono. intros l bl Hl. by left.
Qed.
Print Assumptions C85_incremental_partial.

(** The repositories of C77 and C82 meet the hypotheses.  Callers of both kinds exist: one that waits for the end of each channel reads all of
    whatever is delivered, and one that stops after no commit, or that wants no record of a commit that has some, does not. *)
Example C85_hypotheses_hold :
  usable 3 any_date q_repo q_hist q_about /\ (forall all : bool, answers q_repo q_hist q_about q_git (if all then [B "--all"] else []) (if all then [B "--all"] else [])) /\
  usable 3 any_date n_repo2 n_hist n_about /\ answers n_repo2 n_hist n_about n_git [] [range_of n_opts] /\ starts_after n_repo2 n_opts qa /\
  (forall ys : list (mcommit N * list (bresult N unit)), reads_all (fun _ _ => None) None ys) /\
  (forall (y : mcommit N * list (bresult N unit)) ys, ~ reads_all (fun _ _ => None) (Some 0) (y :: ys)) /\
  (forall (c : mcommit N) (r : bresult N unit) rs ys, ~ reads_all (fun _ _ => Some 0) None ((c, r :: rs) :: ys)).
Proof.
  destruct C77_hypotheses_hold as (H1 & H2 & _). destruct C82_hypotheses_hold as (H3 & H4 & _ & H5 & _).
  split; [exact H1|]. split; [exact H2|]. split; [exact H3|]. split; [exact H4|]. split; [exact H5|]. split; [intros ys pre c rs post _; split; [discriminate|exact I]|]. split.
  - intros [c rs] ys Hr. destruct (Hr [] c rs ys eq_refl) as [Hq _]. by apply Hq.
  - intros c r rs ys Hr. destruct (Hr [] c (r :: rs) ys eq_refl) as [_ Hw]. cbn in Hw. apply Nat.nle_succ_0 in Hw. exact Hw.
Qed.
