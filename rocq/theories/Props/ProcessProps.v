(** * Properties C26-C34: processing the patch log into blame data *)
From Verif.Model Require Import Base GoStrings IncBlame LogParser ParentsGraph Process Timing.
From Verif.Spec Require Import Text UnifiedDiff Attribution GitLog CommitGraph History Processing.
From Verif.Proofs Require Import TextLemmas LogParse GraphExamples ParentsGraphProofs BlameOf ProcessRegular ProcessMerge ProcessLoop
  MergeOrder ProcessTop TimingProofs ProcessExamples.
From Coq Require Import Lia.

(** ** C26: one result per commit, in log order

    For every log whose entries for one commit are consecutive; if processing stops early, the results of the commits before. *)
Theorem C26_one_result_per_commit e r0 gs s o :
  grouped (env_parents e) gs -> process_log e (pst_init r0) (concat gs.*2) = (s, o) ->
  exists n, map r_commit (s_out s) = take n gs.*1 /\ (o = Ret tt -> n = length gs).
Proof. intros [Hn HF] E. exact (one_result e gs (pst_init r0) eq_refl Hn HF s o E). Qed.
Print Assumptions C26_one_result_per_commit.

(** In particular for the text git prints: exactly the listed commits, in their order. *)
Theorem C26_git_log k H slow e before r0 cs :
  run_ready H slow k e before r0 cs -> short_lines (log_lines (git_log H cs)) ->
  exists s, process_log e (pst_init r0) (log_run (render_log (git_log H cs))).1 = (s, Ret tt) /\ map r_commit (s_out s) = cs.
Proof.
  intros [HV Hk HS HA He Ho Hc Hb] Hsh. rewrite (log_of_history k H HV cs (fun c Hin => proj1 (Hc c Hin)) Hsh). cbn [fst].
  destruct (run_ok k H slow HV Hk HS HA e He before r0 cs Ho Hc Hb) as (s & fin & E & Hinv). exists s. split; [exact E|].
  destruct (li_out _ _ _ _ _ _ _ _ Hinv) as (rs & -> & HF). cbn [app]. clear -HF.
  induction HF as [|c res cs rs Hr _ IH]; [done|]. cbn. rewrite IH. f_equal. unfold commit_right in Hr. destruct (decide _); apply Hr.
Qed.
Print Assumptions C26_git_log.

Lemma ex_ready o : any_orders o -> run_ready ex_hist (ex_slow ex_hist) 3 (ex_env ex_hist o) [] ∅ ex_commits.
Proof.
  intros Ho. split; [exact ex_valid|lia|apply ex_slow_right|exact ex_acyclic|by apply ex_env_right|exact ex_parents_first| |].
  - intros c Hc. split; [by apply ex_all_known|by apply ex_plain].
  - intros p Hp. by apply elem_of_nil in Hp.
Qed.
Lemma ex2_ready o : any_orders o -> run_ready ex2_hist (ex_slow ex2_hist) 3 (ex_env ex2_hist o) [] ∅ ex2_commits.
Proof.
  intros Ho. split; [exact ex2_valid|lia|apply ex_slow_right|exact ex2_acyclic|by apply ex_env_right|exact ex2_parents_first|exact ex2_plain|].
  intros p Hp. by apply elem_of_nil in Hp.
Qed.
(** A history with a merge: five commits, six log entries, five results; line by line, the merge's blame of f. *)
Example C26_hypotheses_hold :
  run_ready ex_hist (ex_slow ex_hist) 3 (ex_env ex_hist rev_orders) [] ∅ ex_commits /\
  short_lines (log_lines (git_log ex_hist ex_commits)) /\
  length (log_run (render_log (git_log ex_hist ex_commits))).1 = 6 /\
  map (fun r => (r_commit r, map (fun x : bytes * blame => (x.1, map l_commit (b_lines x.2))) (map_to_list (r_files r))))
    (s_out (process_log (ex_env ex_hist rev_orders) (pst_init ∅) (log_run (render_log (git_log ex_hist ex_commits))).1).1) =
  [(a1, [(f_, [a1])]); (b2, [(f_, [a1; b2])]); (c3, [(g_, [c3])]); (d4, [(f_, [d4; a1; b2])]); (e5, [(h_, [c3])])].
Proof. split; [apply ex_ready, rev_orders_any|]. split; [exact ex_log_short|]. split; vm_compute; reflexivity. Qed.

(** ** C27: every reported file, and every file of every commit in the state, has the blame that follows from the history

    Partial: histories in which no merge changes the type of a file (regular file, symbolic link, submodule) against a parent
    and no path in a merge starts with "@@@del@@@" ([plain_merge]). *)
Theorem C27_results_right_partial k H slow e before r0 cs :
  run_ready H slow k e before r0 cs -> short_lines (log_lines (git_log H cs)) ->
  exists s, process_log e (pst_init r0) (log_run (render_log (git_log H cs))).1 = (s, Ret tt) /\
    Forall2 (commit_right H slow) cs (s_out s).
Proof.
  intros [HV Hk HS HA He Ho Hc Hb] Hsh. rewrite (log_of_history k H HV cs (fun c Hin => proj1 (Hc c Hin)) Hsh). cbn [fst].
  destruct (run_ok k H slow HV Hk HS HA e He before r0 cs Ho Hc Hb) as (s & fin & E & Hinv). exists s. split; [exact E|].
  by destruct (li_out _ _ _ _ _ _ _ _ Hinv) as (rs & -> & HF).
Qed.
Print Assumptions C27_results_right_partial.

(** What such blame means: its lines are the lines of the file in that commit (up to trailing carriage returns), each
    attributed to the commit or one of its ancestors; see [blame_of] for which. *)
Theorem C27_blame_is_the_file k H slow c f b e :
  valid_history k H -> slow_blame_right H slow -> is_Some (hi_parents H !! c) -> blame_of H slow c f b ->
  hi_tree H c !! f = Some e ->
  (b_binary b = false -> Forall2 same_up_to_cr (texts (b_lines b)) (content_lines (en_content e))) /\
  (forall l, l ∈ b_lines b -> reaches (hi_parents H) c (l_commit l)).
Proof. intros HV HS Hc Hb He. exact (good_text k H slow HV HS c f b Hc Hb e He). Qed.
Print Assumptions C27_blame_is_the_file.
(** Text files are never marked binary, so for them the clause above is never void. *)
Theorem C27_text_is_never_binary k H slow c f b :
  valid_history k H -> slow_blame_right H slow -> (forall c f e, hi_tree H c !! f = Some e -> exists ls, en_content e = CText ls) ->
  is_Some (hi_parents H !! c) -> blame_of H slow c f b -> b_binary b = false.
Proof. intros HV HS HT Hc Hb. exact (blame_not_binary k H slow HV HS HT c f b Hb Hc). Qed.
Print Assumptions C27_text_is_never_binary.

(** The state keeps the right blame of all files for every commit that may still get a child. *)
Theorem C27_state_right_partial k H slow e before r0 cs :
  run_ready H slow k e before r0 cs ->
  exists s, process_log e (pst_init r0) (map commit_of (git_log H cs)) = (s, Ret tt) /\
    forall c, c ∈ before \/ c ∈ cs -> ~ finished H cs c -> good H slow (s_repo s) c.
Proof.
  intros [HV Hk HS HA He Ho Hc Hb].
  destruct (run_ok k H slow HV Hk HS HA e He before r0 cs Ho Hc Hb) as (s & fin & E & Hinv). exists s. split; [exact E|].
  intros c Hin Hnf. pose proof (li_repo _ _ _ _ _ _ _ _ Hinv c Hin) as Hg. rewrite decide_False in Hg; [done|]. intros Hx.
  apply Hnf, (li_fin _ _ _ _ _ _ _ _ Hinv). rewrite elem_of_list_In, in_rev, <-elem_of_list_In, <-(take_drop max_commits_in_checkpoint (rev fin)).
  apply elem_of_app. by right.
Qed.
Print Assumptions C27_state_right_partial.
Example C27_hypotheses_hold : run_ready ex2_hist (ex_slow ex2_hist) 3 (ex_env ex2_hist id_orders) [] ∅ ex2_commits.
Proof. apply ex2_ready, id_orders_any. Qed.

(** ** C28: the reported files are the changed files *)
Theorem C28_reported_files k H slow e before r0 cs :
  run_ready H slow k e before r0 cs ->
  exists s, process_log e (pst_init r0) (map commit_of (git_log H cs)) = (s, Ret tt) /\
    forall i c res, cs !! i = Some c -> s_out s !! i = Some res -> length (hparents H c) <= 1 ->
      (forall f, is_Some (r_files res !! f) <-> exists p, p ∈ patches_of H c /\ (writes p f \/ deletes p f)) /\
      (forall f b, r_files res !! f = Some b -> (forall p, p ∈ patches_of H c -> ~ writes p f) -> b_lines b = []).
Proof.
  intros [HV Hk HS HA He Ho Hc Hb].
  destruct (run_ok k H slow HV Hk HS HA e He before r0 cs Ho Hc Hb) as (s & fin & E & Hinv). exists s. split; [exact E|].
  intros i c res Hi Hr Hl. destruct (li_out _ _ _ _ _ _ _ _ Hinv) as (rs & Ers & HF). rewrite Ers in Hr. cbn [app] in Hr.
  assert (Hres : result_right H slow c (patches_of H c) res).
  { pose proof (Forall2_lookup_lr _ _ _ _ _ _ HF Hi Hr) as Hcr. unfold commit_right in Hcr. rewrite decide_False in Hcr by lia. exact Hcr. }
  destruct Hres as (_ & Hd & _ & Hdel). split; [exact Hd|]. intros f b Hfb Hnw. by apply (Hdel f b).
Qed.
Print Assumptions C28_reported_files.
Example C28_hypotheses_hold :
  run_ready ex_hist (ex_slow ex_hist) 3 (ex_env ex_hist id_orders) [] ∅ ex_commits /\ length (hparents ex_hist e5) <= 1 /\ patches_of ex_hist e5 <> [].
Proof. split; [apply ex_ready, id_orders_any|]. split; [vm_compute; lia|done]. Qed.

(** ** C29: files removed or renamed away

    [r] is the state before the commit, with the parents' files.  What a deletion in a commit with at most one parent removes: *)
Theorem C29_deleted_disappears_partial k H slow c (r : repo) lc f :
  valid_history k H -> 2 <= k -> slow_blame_right H slow -> acyclic (hi_parents H) ->
  is_Some (hi_parents H !! c) -> length (hparents H c) <= 1 -> (forall p, p ∈ hparents H c -> good H slow r p) ->
  lc_hash lc = c -> lc_changes lc = map change_text (patches_of H c) ->
  (exists p, p ∈ patches_of H c /\ deletes p f) -> (forall p, p ∈ patches_of H c -> ~ writes p f) ->
  exists r' res fs, process_regular slow r (hparents H c) lc = Ret (r', res) /\ r' !! c = Some fs /\ fs !! f = None.
Proof.
  intros HV Hk HS HA Hc Hl Hg Hh Hch (p & Hp & Hd) Hnw.
  destruct (regular_ok k H slow HV Hk HS c r lc Hc Hl (c_not_parent H HA c) Hg Hh Hch) as (r' & res & inh & fs & E & _ & _ & Hfs & _ & _ & (_ & Hs & _)).
  exists r', res, fs. split_and!; try done. apply Hs; [done|]. exists p. split; [done|by right].
Qed.
Print Assumptions C29_deleted_disappears_partial.
(** Without renames, a state that holds exactly the parent's files becomes one that holds exactly the commit's files. *)
Theorem C29_exact_without_renames_partial k H slow c p (r : repo) lc fsp :
  valid_history k H -> 2 <= k -> slow_blame_right H slow -> acyclic (hi_parents H) ->
  hparents H c = [p] -> r !! p = Some fsp -> good_files H slow p fsp -> (forall f, is_Some (fsp !! f) -> is_Some (hi_tree H p !! f)) ->
  lc_hash lc = c -> lc_changes lc = map change_text (hi_diff H c p) ->
  (forall q a b s m, q ∈ hi_diff H c p -> fp_kind q <> FRename a b s m) ->
  exists r' res fs, process_regular slow r (hparents H c) lc = Ret (r', res) /\ r' !! c = Some fs /\
    forall f, is_Some (fs !! f) <-> is_Some (hi_tree H c !! f).
Proof.
  intros HV Hk HS HA Hp Hr Hgf Hex Hh Hch Hnr.
  assert (Hpin : p ∈ hparents H c) by (rewrite Hp; by constructor).
  assert (Hps : patches_of H c = hi_diff H c p) by (unfold patches_of; by rewrite Hp).
  destruct (regular_ok k H slow HV Hk HS c r lc) as (r' & res & inh & fs & E & _ & Hg & Hfs & _ & Hinh & (S1 & S2 & S3)).
  { by eapply child_known. }
  { rewrite Hp. cbn. lia. }
  { by apply c_not_parent. }
  { intros x Hx. rewrite Hp in Hx. apply elem_of_list_singleton in Hx as ->. by exists fsp. }
  { done. }
  { by rewrite Hps. }
  rewrite Hps in *. rewrite Hp in Hinh. rewrite Hr in Hinh. injection Hinh as <-.
  exists r', res, fs. split_and!; try done. intros f. split.
  - intros Hsome. pose proof (describes_parent k H HV c p Hpin) as HD.
    destruct (decide (Exists (fun q => f <> [] /\ name_after (fp_kind q) = f) (hi_diff H c p))) as [Hw|Hw].
    + apply Exists_exists in Hw as (q & Hq & Hw). destruct (writes_new k _ _ _ q f HD Hq Hw) as (e & _ & He & _). by eexists.
    + assert (Hnw : forall q, q ∈ hi_diff H c p -> ~ writes q f).
      { intros q Hq Hwq. apply Hw. apply Exists_exists. by exists q. }
      assert (Hnt : ~ touched (hi_diff H c p) f).
      { intros Ht. rewrite (S2 f Hnw Ht) in Hsome. by apply is_Some_None in Hsome. }
      rewrite (S3 f Hnt) in Hsome. apply Hex in Hsome as [e He].
      destruct (hi_tree H c !! f) as [e'|] eqn:E'; [by eexists|]. exfalso.
      destruct HD as (_ & Hcov & _). destruct (Hcov f) as [_ Hrem]; [rewrite He, E'; done|].
      destruct (Hrem E') as (q & Hq & Hrm). unfold removes in Hrm. destruct (fp_kind q) as [| |g m|a b ss m] eqn:Ek; try done.
      * apply Hnt. exists q. split; [done|]. right. unfold deletes. by rewrite Ek.
      * by eapply Hnr.
  - intros Hsome. destruct Hg as (fs' & Hfs' & Hgd). rewrite Hfs in Hfs'. injection Hfs' as <-. destruct (Hgd f Hsome) as (b & -> & _). by eexists.
Qed.
Print Assumptions C29_exact_without_renames_partial.

(** The property fails for renames: the old path of a rename keeps, in the state of the commit, the entry it has for the parent ... *)
Theorem C29_rename_keeps_old_path_refuted k H slow c p (r : repo) lc q f g s m fsp :
  valid_history k H -> 2 <= k -> slow_blame_right H slow -> acyclic (hi_parents H) ->
  hparents H c = [p] -> r !! p = Some fsp -> good_files H slow p fsp ->
  lc_hash lc = c -> lc_changes lc = map change_text (hi_diff H c p) ->
  q ∈ hi_diff H c p -> fp_kind q = FRename f g s m -> (forall q', q' ∈ hi_diff H c p -> ~ deletes q' f) ->
  exists r' res fs, process_regular slow r (hparents H c) lc = Ret (r', res) /\ r' !! c = Some fs /\
    hi_tree H c !! f = None /\ fs !! f = fsp !! f /\ is_Some (fs !! f).
Proof.
  intros HV Hk HS HA Hp Hr Hgf Hh Hch Hq Ek Hnd.
  assert (Hpin : p ∈ hparents H c) by (rewrite Hp; by constructor).
  assert (Hps : patches_of H c = hi_diff H c p) by (unfold patches_of; by rewrite Hp).
  destruct (regular_ok k H slow HV Hk HS c r lc) as (r' & res & inh & fs & E & _ & Hg & Hfs & _ & Hinh & (S1 & S2 & S3)).
  { by eapply child_known. }
  { rewrite Hp. cbn. lia. }
  { by apply c_not_parent. }
  { intros x Hx. rewrite Hp in Hx. apply elem_of_list_singleton in Hx as ->. by exists fsp. }
  { done. }
  { by rewrite Hps. }
  rewrite Hps in *. rewrite Hp in Hinh. rewrite Hr in Hinh. injection Hinh as <-.
  pose proof (describes_parent k H HV c p Hpin) as HD. destruct HD as (HF & HDrest).
  pose proof HF as HF'. rewrite Forall_forall in HF'. destruct (HF' _ Hq) as (_ & _ & Hkind). rewrite Ek in Hkind.
  destruct Hkind as (e & e' & He & He' & _).
  assert (Hnt : ~ touched (hi_diff H c p) f).
  { intros (q' & Hq' & [Hw|Hd]).
    - destruct (writes_new k _ _ _ q' f (conj HF HDrest) Hq' Hw) as (x & _ & Hx & _). by rewrite He' in Hx.
    - by eapply Hnd. }
  exists r', res, fs. split_and!; try done; [by apply S3|]. rewrite (S3 f Hnt). destruct (Hgf f ltac:(by eexists)) as (b & -> & _). by eexists.
Qed.
Print Assumptions C29_rename_keeps_old_path_refuted.
(** ... and for merges: a path deleted by a merge keeps the entry of the last parent that has one. *)
Theorem C29_merge_deletion_keeps_path_refuted k H slow o c (r : repo) parts f :
  valid_history k H -> 2 <= k -> slow_blame_right H slow -> acyclic (hi_parents H) ->
  any_orders o -> is_Some (hi_parents H !! c) -> 1 < length (hparents H c) -> plain_merge H c ->
  (forall p, p ∈ hparents H c -> good H slow r p) -> parts_ok H c parts ->
  hi_tree H c !! f = None -> (exists p, p ∈ hparents H c /\ is_Some (hi_tree H p !! f)) ->
  exists r' res fs, process_merge o r (hparents H c) c parts = Ret (r', res) /\ r' !! c = Some fs /\ is_Some (fs !! f).
Proof.
  intros HV Hk HS HA Ho Hc Hm Hpl Hg Hparts Hf (p & Hp & Hpf).
  destruct (merge_ok k H slow HV Hk HS HA o c r parts Ho Hc Hm Hpl Hg Hparts) as (r' & res & fs & E & _ & _ & _ & Hfs & Hcand & _).
  exists r', res, fs. split; [exact E|]. split; [exact Hfs|]. rewrite (Hcand f Hf).
  destruct (last (candidates H c r f)) eqn:El; [by eexists|]. apply last_None in El. exfalso.
  destruct (Hg p Hp) as (fsp & Hr & Hgf). destruct (Hgf f Hpf) as (b & Hb & _).
  assert (b ∈ candidates H c r f) as Hin.
  { unfold candidates. apply elem_of_list_omap. exists p. split; [done|]. rewrite Hr. cbn. done. }
  rewrite El in Hin. by apply elem_of_nil in Hin.
Qed.
Print Assumptions C29_merge_deletion_keeps_path_refuted.
(** Concretely: after e5 renamed g to h, g is still stored for e5; after the merge d4 of the second history deleted g, g is
    still stored for d4. *)
Definition final_state (H : history) (cs : list bytes) : pst :=
  (process_log (ex_env H id_orders) (pst_init ∅) (map commit_of (git_log H cs))).1.
Example C29_hypotheses_hold :
  run_ready ex_hist (ex_slow ex_hist) 3 (ex_env ex_hist id_orders) [] ∅ ex_commits /\
  run_ready ex2_hist (ex_slow ex2_hist) 3 (ex_env ex2_hist id_orders) [] ∅ ex2_commits /\
  (hi_tree ex_hist e5 !! g_ = None /\ (s_repo (final_state ex_hist ex_commits) !! e5 ≫= fun fs : files => fs !! g_) = Some (Blame c3 [Line z_ c3] false)) /\
  (hi_tree ex2_hist d4 !! g_ = None /\ (s_repo (final_state ex2_hist ex2_commits) !! d4 ≫= fun fs : files => fs !! g_) = Some (Blame a1 [Line z_ a1] false)) /\
  (s_repo (final_state ex_hist ex_commits) !! e5 ≫= fun fs : files => fs !! h_) = Some (Blame e5 [Line z_ c3] false).
Proof. split; [apply ex_ready, id_orders_any|]. split; [apply ex2_ready, id_orders_any|]. vm_compute. split; [split; reflexivity|split; [split; reflexivity|reflexivity]]. Qed.

(** ** C30: merges do not depend on the iteration order of maps

    Partial: unless one part deletes a path that another change of the merge writes. *)
Theorem C30_order_irrelevant_partial o1 o2 r parents hash parts x :
  any_orders o1 -> any_orders o2 -> NoDup parents -> hash ∉ parents ->
  (forall par lc, parts !! par = Some lc -> lc_changes lc <> [] -> par ∈ parents) ->
  (forall par1 lc1 ch1 d1 par2 lc2 ch2 d2,
     parts !! par1 = Some lc1 -> ch1 ∈ lc_changes lc1 -> parse ch1 = Ret d1 ->
     parts !! par2 = Some lc2 -> ch2 ∈ lc_changes lc2 -> parse ch2 = Ret d2 ->
     d_path d1 = [] -> d_path d2 <> [] -> d_prev d1 <> d_path d2) ->
  process_merge o1 r parents hash parts = Ret x -> process_merge o2 r parents hash parts = Ret x.
Proof.
  intros H1 H2 Hn Hh Hp Hc. apply (merge_order o1 o2 r parents hash parts x H1 H2 Hn Hh Hp).
  intros d d' (par & lc & ch & A1 & A2 & A3) (par' & lc' & ch' & B1 & B2 & B3). exact (Hc _ _ _ _ _ _ _ _ A1 A2 A3 B1 B2 B3).
Qed.
Print Assumptions C30_order_irrelevant_partial.
(** Two complete runs over one history, with any iteration orders, end in the same state with the same results. *)
Theorem C30_runs_same_partial k H slow e1 e2 before r0 cs :
  run_ready H slow k e1 before r0 cs -> env_right H slow e2 -> NoDup cs ->
  exists s, process_log e1 (pst_init r0) (map commit_of (git_log H cs)) = (s, Ret tt) /\
            process_log e2 (pst_init r0) (map commit_of (git_log H cs)) = (s, Ret tt).
Proof.
  intros [HV Hk HS HA He Ho Hc Hb] He2 Hnd.
  destruct (run_ok k H slow HV Hk HS HA e1 He before r0 cs Ho Hc Hb) as (s & fin & E & _). exists s. split; [exact E|].
  rewrite (log_app H cs) in *. eapply (runs_same k H slow HV HA e1 e2 He He2 cs Hc Hnd); [done|exact E].
Qed.
Print Assumptions C30_runs_same_partial.
Example C30_hypotheses_hold :
  run_ready ex_hist (ex_slow ex_hist) 3 (ex_env ex_hist id_orders) [] ∅ ex_commits /\
  env_right ex_hist (ex_slow ex_hist) (ex_env ex_hist rev_orders) /\ NoDup ex_commits.
Proof. split; [apply ex_ready, id_orders_any|]. split; [apply ex_env_right, rev_orders_any|in_list]. Qed.
(** A merge that replaces a file (here against its first parent) by one of another type: git prints a deletion and a creation
    of one path, and whether the file is reported with its line or as deleted depends on the iteration order. *)
Definition retype_parts : gmap bytes lcommit :=
  {[ b2 := LCommit d4 b2 (map change_text [removal; creates g_ [Add w_]]);
     c3 := LCommit d4 c3 (map change_text [removal; creates g_ [Add w_]]) ]}.
Definition retype_repo : repo :=
  {[ b2 := {[ g_ := Blame b2 [Line z_ b2] false ]}; c3 := {[ g_ := Blame b2 [Line z_ b2] false ]} ]}.
Definition reported (o : outcome (repo * result)) : option (list (bytes * list bytes)) :=
  match o with Ret (_, res) => Some (map (fun x : bytes * blame => (x.1, map l_data (b_lines x.2))) (map_to_list (r_files res))) | _ => None end.
Theorem C30_retyped_refuted :
  any_orders id_orders /\ any_orders rev_orders /\
  reported (process_merge id_orders retype_repo [b2; c3] d4 retype_parts) <>
  reported (process_merge rev_orders retype_repo [b2; c3] d4 retype_parts) /\
  reported (process_merge id_orders retype_repo [b2; c3] d4 retype_parts) <> None /\
  reported (process_merge rev_orders retype_repo [b2; c3] d4 retype_parts) <> None.
Proof. split; [apply id_orders_any|]. split; [apply rev_orders_any|]. split; [|split]; intros Heq; vm_compute in Heq; discriminate Heq. Qed.
Print Assumptions C30_retyped_refuted.

(** ** C31: what a merge reports

    Partial: of the files that are the same as in a parent, binary ones may be reported (see below). *)
Theorem C31_reported_partial k H slow e before r0 cs :
  run_ready H slow k e before r0 cs ->
  exists s, process_log e (pst_init r0) (map commit_of (git_log H cs)) = (s, Ret tt) /\
    forall i c res, cs !! i = Some c -> s_out s !! i = Some res -> 1 < length (hparents H c) ->
      forall f, is_Some (hi_tree H c !! f) ->
        ((forall p, p ∈ hparents H c -> hi_tree H p !! f <> hi_tree H c !! f) ->
           exists b, r_files res !! f = Some b /\ blame_of H slow c f b) /\
        (forall p, p ∈ hparents H c -> hi_tree H p !! f = hi_tree H c !! f ->
           r_files res !! f = None \/ exists b, r_files res !! f = Some b /\ b_binary b = true).
Proof.
  intros [HV Hk HS HA He Ho Hc Hb].
  destruct (run_ok k H slow HV Hk HS HA e He before r0 cs Ho Hc Hb) as (s & fin & E & Hinv). exists s. split; [exact E|].
  intros i c res Hi Hr Hl f Hf. destruct (li_out _ _ _ _ _ _ _ _ Hinv) as (rs & Ers & HF). rewrite Ers in Hr. cbn [app] in Hr.
  assert (Hres : merge_result_right H slow c res).
  { pose proof (Forall2_lookup_lr _ _ _ _ _ _ HF Hi Hr) as Hcr. unfold commit_right in Hcr. rewrite decide_True in Hcr by lia. exact Hcr. }
  destruct Hres as (_ & Hin & _). destruct (Hin f Hf) as (Hbl & Hdiff & Hsame). split.
  - intros Hd. destruct (Hdiff Hd) as [b Hfb]. exists b. split; [exact Hfb|by apply Hbl].
  - intros p Hp Hps. destruct (r_files res !! f) as [b|] eqn:Ef; [right|by left]. exists b. split; [done|]. by eapply Hsame.
Qed.
Print Assumptions C31_reported_partial.
(** What is stored for the merge: a reported file as reported; any other file with the blame stored for a parent that has the
    same file. *)
Theorem C31_keeps_parents_blame k H slow o c (r : repo) parts :
  valid_history k H -> 2 <= k -> slow_blame_right H slow -> acyclic (hi_parents H) ->
  any_orders o -> is_Some (hi_parents H !! c) -> 1 < length (hparents H c) -> plain_merge H c ->
  (forall p, p ∈ hparents H c -> good H slow r p) -> parts_ok H c parts ->
  exists r' res fs, process_merge o r (hparents H c) c parts = Ret (r', res) /\ r' !! c = Some fs /\
    forall f, is_Some (hi_tree H c !! f) ->
      match r_files res !! f with
      | Some b => fs !! f = Some b
      | None => exists p fsp, p ∈ hparents H c /\ hi_tree H p !! f = hi_tree H c !! f /\ r !! p = Some fsp /\
                  fs !! f = fsp !! f /\ is_Some (fs !! f)
      end.
Proof.
  intros HV Hk HS HA Ho Hc Hm Hpl Hg Hparts.
  destruct (merge_ok k H slow HV Hk HS HA o c r parts Ho Hc Hm Hpl Hg Hparts) as (r' & res & fs & E & _ & _ & _ & Hfs & _ & Hst).
  exists r', res, fs. split; [exact E|]. split; [exact Hfs|]. intros f Hf. specialize (Hst f Hf).
  destruct (r_files res !! f) as [b|]; [exact Hst|]. destruct Hst as (p & Hp & Hsame & Hl & Hs).
  destruct (Hg p Hp) as (fsp & Hr & _). rewrite Hr in Hl. cbn in Hl. exists p, fsp. by split_and!.
Qed.
Print Assumptions C31_keeps_parents_blame.
Example C31_hypotheses_hold :
  run_ready ex_hist (ex_slow ex_hist) 3 (ex_env ex_hist id_orders) [] ∅ ex_commits /\ 1 < length (hparents ex_hist d4) /\
  (forall p, p ∈ hparents ex_hist d4 -> hi_tree ex_hist p !! f_ <> hi_tree ex_hist d4 !! f_) /\
  hi_tree ex_hist c3 !! g_ = hi_tree ex_hist d4 !! g_ /\
  option_map (fun r => map fst (map_to_list (r_files r))) (s_out (final_state ex_hist ex_commits) !! 3) = Some [f_].
Proof.
  split; [apply ex_ready, id_orders_any|]. split; [vm_compute; lia|]. split; [|split; vm_compute; reflexivity].
  intros p Hp. vm_compute in Hp. repeat (apply elem_of_cons in Hp as [->|Hp]; [intros Heq; vm_compute in Heq; discriminate Heq|]). by apply elem_of_nil in Hp.
Qed.
(** A binary file that is the same as in one parent is reported (and loses that parent's blame). *)
Theorem C31_binary_refuted :
  exists H, run_ready H (ex_slow H) 3 (ex_env H id_orders) [] ∅ [a1; b2; c3; d4] /\
    1 < length (hparents H d4) /\ b2 ∈ hparents H d4 /\ is_Some (hi_tree H d4 !! f_) /\ hi_tree H b2 !! f_ = hi_tree H d4 !! f_ /\
    exists res, s_out (final_state H [a1; b2; c3; d4]) !! 3 = Some res /\ r_files res !! f_ = Some (Blame d4 [] true).
Proof.
  exists ex3_hist. split; [|split; [vm_compute; lia|split; [in_list|split; [vm_compute; by eexists|split; [vm_compute; reflexivity|]]]]].
  - split; [exact ex3_valid|lia|apply ex_slow_right|exact ex3_acyclic|apply ex_env_right, id_orders_any|exact ex3_parents_first|exact ex3_plain|].
    intros p Hp. by apply elem_of_nil in Hp.
  - eexists. split; [vm_compute; reflexivity|vm_compute; reflexivity].
Qed.
Print Assumptions C31_binary_refuted.

(** ** C32: no parent is dropped before its children are processed *)
Theorem C32_parents_available k H slow e before r0 cs1 c cs2 :
  run_ready H slow k e before r0 (cs1 ++ c :: cs2) ->
  exists s, process_log e (pst_init r0) (map commit_of (git_log H cs1)) = (s, Ret tt) /\
    forall p, p ∈ hparents H c -> exists fs, s_repo s !! p = Some fs /\ good_files H slow p fs.
Proof.
  intros [HV Hk HS HA He Ho Hc Hb]. destruct (parents_first_app H before cs1 (c :: cs2) Ho) as (Ho1 & Hn & Ho2).
  destruct (run_ok k H slow HV Hk HS HA e He before r0 cs1 Ho1) as (s & fin & E & Hinv); [|done|].
  { intros x Hx. apply Hc. apply elem_of_app. by left. }
  exists s. split; [exact E|]. intros p Hp. destruct Ho2 as (_ & Hpar & _). destruct (Hpar p Hp) as [Hkn _].
  apply elem_of_app in Hkn. assert (Hkn' : p ∈ before \/ p ∈ cs1).
  { destruct Hkn as [Hx|Hx]; [right|by left]. by rewrite elem_of_list_In, <-in_rev, <-elem_of_list_In in Hx. }
  pose proof (li_repo _ _ _ _ _ _ _ _ Hinv p Hkn') as Hg. case_decide as Hd; [|exact Hg]. exfalso.
  assert (Hxf : p ∈ fin).
  { assert (p ∈ rev fin) as Hin by (rewrite <-(take_drop 1000 (rev fin)); apply elem_of_app; by right).
    by rewrite elem_of_list_In, <-in_rev, <-elem_of_list_In in Hin. }
  apply (li_fin _ _ _ _ _ _ _ _ Hinv) in Hxf as [_ Hall]. apply (Hn c); [by apply Hall|by constructor].
Qed.
Print Assumptions C32_parents_available.
(** A commit is dropped only after all its children and 1000 further commits are finished. *)
Theorem C32_dropped_late k H slow e before r0 cs :
  run_ready H slow k e before r0 cs ->
  exists s, process_log e (pst_init r0) (map commit_of (git_log H cs)) = (s, Ret tt) /\
    forall p, p ∈ before \/ p ∈ cs -> s_repo s !! p = None ->
      (forall d, p ∈ hparents H d -> d ∈ cs) /\
      exists qs, length qs = 1000 /\ NoDup qs /\ p ∉ qs /\
        forall q, q ∈ qs -> finished H cs q /\ forall n, finished H (take n cs) q -> finished H (take n cs) p.
Proof.
  intros [HV Hk HS HA He Ho Hc Hb].
  destruct (run_ok k H slow HV Hk HS HA e He before r0 cs Ho Hc Hb) as (s & fin & E & Hinv). exists s. split; [exact E|].
  intros p Hp Hnone. pose proof (li_repo _ _ _ _ _ _ _ _ Hinv p Hp) as Hg.
  case_decide as Hd; [|destruct Hg as (fs & Hfs & _); by rewrite Hfs in Hnone]. clear Hg.
  pose proof (li_nodup _ _ _ _ _ _ _ _ Hinv) as Hnd. rewrite (Permutation_rev fin) in Hnd.
  assert (Hinfin : forall x, x ∈ rev fin -> x ∈ fin) by (intros x Hx; by rewrite elem_of_list_In, <-in_rev, <-elem_of_list_In in Hx).
  assert (Hpf : p ∈ fin) by (apply Hinfin; rewrite <-(take_drop 1000 (rev fin)); apply elem_of_app; by right).
  pose proof Hpf as Hfin. apply (li_fin _ _ _ _ _ _ _ _ Hinv) in Hfin as [_ Hall]. split; [exact Hall|].
  exists (take 1000 (rev fin)).
  assert (Hlen : 1000 < length (rev fin)).
  { destruct (decide (1000 < length (rev fin))) as [|Hle]; [done|]. rewrite drop_ge in Hd by (unfold max_commits_in_checkpoint; lia). by apply elem_of_nil in Hd. }
  rewrite <-(take_drop 1000 (rev fin)) in Hnd. apply NoDup_app in Hnd as (Hn1 & Hdis & _).
  split; [rewrite take_length; lia|]. split; [exact Hn1|]. split; [intros Hx; by apply (Hdis p Hx)|].
  intros q Hq. assert (Hqf : q ∈ fin) by (apply Hinfin; rewrite <-(take_drop 1000 (rev fin)); apply elem_of_app; by left).
  split; [by apply (li_fin _ _ _ _ _ _ _ _ Hinv)|]. intros n.
  apply elem_of_list_lookup in Hd as (j & Hj). rewrite lookup_drop in Hj. apply elem_of_list_lookup in Hq as (i & Hi).
  pose proof (lookup_lt_Some _ _ _ Hi) as Hil. rewrite take_length in Hil. rewrite lookup_take in Hi by lia.
  pose proof (lookup_lt_Some _ _ _ Hj) as Hjl. rewrite rev_length in Hjl.
  change max_commits_in_checkpoint with 1000 in *.
  eapply (li_order _ _ _ _ _ _ _ _ Hinv (length fin - S (1000 + j)) (length fin - S i)); [lia|by apply rev_lookup|by apply rev_lookup].
Qed.
Print Assumptions C32_dropped_late.
Example C32_hypotheses_hold :
  run_ready ex_hist (ex_slow ex_hist) 3 (ex_env ex_hist id_orders) [] ∅ ([a1; b2; c3] ++ d4 :: [e5]) /\ hparents ex_hist d4 = [b2; c3].
Proof. split; [apply (ex_ready id_orders), id_orders_any|vm_compute; reflexivity]. Qed.

(** ** C33: at most 1000 finished commits are kept, the most recently finished ones

    Partial: finished means that all children were processed in this run. *)
Theorem C33_finished_bounded_partial k H slow e before r0 cs :
  run_ready H slow k e before r0 cs ->
  exists s kept, process_log e (pst_init r0) (map commit_of (git_log H cs)) = (s, Ret tt) /\
    length kept <= 1000 /\
    (forall p, p ∈ before \/ p ∈ cs -> finished H cs p -> (is_Some (s_repo s !! p) <-> p ∈ kept)) /\
    (forall p q n, finished H cs p -> p ∉ kept -> q ∈ kept -> finished H (take n cs) q -> finished H (take n cs) p).
Proof.
  intros [HV Hk HS HA He Ho Hc Hb].
  destruct (run_ok k H slow HV Hk HS HA e He before r0 cs Ho Hc Hb) as (s & fin & E & Hinv). exists s, (take 1000 (rev fin)). split; [exact E|].
  split; [rewrite take_length; lia|].
  pose proof (li_nodup _ _ _ _ _ _ _ _ Hinv) as Hnd. rewrite (Permutation_rev fin) in Hnd.
  assert (Hinrev : forall x, x ∈ rev fin <-> x ∈ fin) by (intros x; by rewrite elem_of_list_In, <-in_rev, <-elem_of_list_In).
  assert (Hsplit : forall x, x ∈ fin <-> x ∈ take 1000 (rev fin) \/ x ∈ drop 1000 (rev fin)).
  { intros x. rewrite <-Hinrev, <-elem_of_app, take_drop. done. }
  rewrite <-(take_drop 1000 (rev fin)) in Hnd. apply NoDup_app in Hnd as (_ & Hdis & _). split.
  - intros p Hp Hf. apply (li_fin _ _ _ _ _ _ _ _ Hinv) in Hf. pose proof (li_repo _ _ _ _ _ _ _ _ Hinv p Hp) as Hg.
    change max_commits_in_checkpoint with 1000 in Hg. case_decide as Hd.
    + rewrite Hg. split; [by intros ?%is_Some_None|]. intros Hx. by apply Hdis in Hx.
    + destruct Hg as (fs & Hfs & _). rewrite Hfs. split; [intros _|by eexists]. apply Hsplit in Hf as [?|?]; done.
  - intros p q n Hf Hnk Hq. apply (li_fin _ _ _ _ _ _ _ _ Hinv) in Hf. apply Hsplit in Hf as [?|Hd]; [done|].
    apply elem_of_list_lookup in Hd as (j & Hj). rewrite lookup_drop in Hj. apply elem_of_list_lookup in Hq as (i & Hi).
    pose proof (lookup_lt_Some _ _ _ Hi) as Hil. rewrite take_length in Hil. rewrite lookup_take in Hi by lia.
    pose proof (lookup_lt_Some _ _ _ Hj) as Hjl. rewrite rev_length in Hjl.
    eapply (li_order _ _ _ _ _ _ _ _ Hinv (length fin - S (1000 + j)) (length fin - S i)); [lia|by apply rev_lookup|by apply rev_lookup].
Qed.
Print Assumptions C33_finished_bounded_partial.
(** Across runs there is no bound: a commit some child of which was processed in an earlier run is never dropped. *)
Theorem C33_resumed_refuted k H slow e before r0 cs :
  run_ready H slow k e before r0 cs ->
  exists s, process_log e (pst_init r0) (map commit_of (git_log H cs)) = (s, Ret tt) /\
    forall p d, p ∈ before -> p ∈ hparents H d -> d ∉ cs -> is_Some (s_repo s !! p).
Proof.
  intros [HV Hk HS HA He Ho Hc Hb].
  destruct (run_ok k H slow HV Hk HS HA e He before r0 cs Ho Hc Hb) as (s & fin & E & Hinv). exists s. split; [exact E|].
  intros p d Hp Hpd Hd. pose proof (li_repo _ _ _ _ _ _ _ _ Hinv p (or_introl Hp)) as Hg.
  case_decide as Hdr; [exfalso|destruct Hg as (fs & -> & _); by eexists].
  assert (Hxf : p ∈ fin).
  { assert (p ∈ rev fin) as Hin by (rewrite <-(take_drop 1000 (rev fin)); apply elem_of_app; by right).
    by rewrite elem_of_list_In, <-in_rev, <-elem_of_list_In in Hin. }
  apply (li_fin _ _ _ _ _ _ _ _ Hinv) in Hxf as [_ Hall]. by apply Hd, Hall.
Qed.
Print Assumptions C33_resumed_refuted.
(** For example, resuming after a1, b2, c3 and processing d4 and e5 keeps a1, although all its children are processed. *)
Example C33_hypotheses_hold :
  run_ready ex_hist (ex_slow ex_hist) 3 (ex_env ex_hist id_orders) [a1; b2; c3] (s_repo (final_state ex_hist [a1; b2; c3])) [d4; e5] /\
  a1 ∈ [a1; b2; c3] /\ a1 ∈ hparents ex_hist b2 /\ b2 ∉ [d4; e5].
Proof.
  split; [|split; [in_list|split; in_list]].
  pose proof (ex_ready id_orders id_orders_any) as [HV Hk HS HA He Ho Hc Hb].
  split; [done|done|done|done|done| | |].
  - repeat (split; [in_list|split; [parents_known|]]). exact I.
  - intros c Hin. apply Hc. repeat (apply elem_of_cons in Hin as [->|Hin]; [in_list|]). by apply elem_of_nil in Hin.
  - destruct (run_ok 3 ex_hist _ HV Hk HS HA _ He [] ∅ [a1; b2; c3]) as (s & fin & E & Hinv).
    + repeat (split; [in_list|split; [parents_known|]]). exact I.
    + intros c Hin. apply Hc. repeat (apply elem_of_cons in Hin as [->|Hin]; [in_list|]). by apply elem_of_nil in Hin.
    + done.
    + intros p Hp. unfold final_state. rewrite E. cbn [fst].
      pose proof (li_repo _ _ _ _ _ _ _ _ Hinv p (or_intror Hp)) as Hg. case_decide as Hd; [exfalso|exact Hg].
      assert (length fin <= 3).
      { assert (fin ⊆+ [a1; b2; c3]) as Hsub; [|by apply submseteq_length in Hsub].
        apply NoDup_submseteq; [exact (li_nodup _ _ _ _ _ _ _ _ Hinv)|]. intros x Hx. apply (li_fin _ _ _ _ _ _ _ _ Hinv) in Hx as [(d & Hd') Hall].
        assert (Hdk : d ∈ [a1; b2; c3]) by by apply Hall.
        assert (Hall2 : forallb (fun d => forallb (fun x => bool_decide (x ∈ [a1; b2; c3])) (hparents ex_hist d)) [a1; b2; c3] = true) by (vm_compute; reflexivity).
        rewrite forallb_forall in Hall2. specialize (Hall2 d (proj1 (elem_of_list_In _ _) Hdk)). rewrite forallb_forall in Hall2.
        specialize (Hall2 x (proj1 (elem_of_list_In _ _) Hd')). by apply bool_decide_eq_true in Hall2. }
      rewrite drop_ge in Hd by (rewrite rev_length; unfold max_commits_in_checkpoint; lia). by apply elem_of_nil in Hd.
Qed.

(** ** C34: the ten slowest commits *)
Theorem C34_ten_slowest srt cs : sorts_desc srt -> slowest_of cs (foldl (update_slowest srt) [] cs).
Proof. apply slowest_all. Qed.
Print Assumptions C34_ten_slowest.
(** Their reported total is the sum of their durations. *)
Theorem C34_total l : slowest_dur l = foldr (fun c s => (t_dur c + s)%Z) 0%Z l.
Proof. apply slowest_sum. Qed.
Print Assumptions C34_total.
(** There is such a sort, and with twelve commits the two fastest are left out. *)
Definition longer (a b : timed) : Prop := (t_dur b <= t_dur a)%Z.
#[local] Instance longer_dec a b : Decision (longer a b). Proof. unfold longer. apply _. Defined.
Example C34_hypotheses_hold : sorts_desc (merge_sort longer) /\
  map t_dur (foldl (update_slowest (merge_sort longer)) [] (map (Timed a1) [5; 1; 9; 2; 8; 3; 7; 4; 6; 11; 10; 12]%Z)) =
  [12; 11; 10; 9; 8; 7; 6; 5; 4; 3]%Z.
Proof.
  split; [|vm_compute; reflexivity]. intros l. split; [apply merge_sort_Permutation|].
  assert (Transitive longer) by (intros x y z; unfold longer; lia).
  assert (Total longer) by (intros x y; unfold longer; lia).
  apply (StronglySorted_merge_sort longer).
Qed.
