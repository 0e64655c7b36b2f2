(** * A call of CodeByCommit: proofs for C85 *)
From Verif.Model Require Import Base GoStrings IncBlame LogParser ParentsGraph Process Msgp Checkpoint CheckpointFS CommitMeta FileInfo CodeInfo Net Pipeline GitBlame LogArgs Api Callers ApiByCommit.
From Verif.Spec Require Import Text UnifiedDiff Attribution GitLog CommitGraph History Processing Records MetaLog EndToEnd Delivery Selection Porcelain GitAnswers Continuing Callers ByCommit.
From Verif.Proofs Require Import NetProofs PipelineProofs PipelineMore CallersProofs ReadersProofs RecordMore EndToEndProofs EndToEndRun ApiProofs.
From Coq Require Import Lia.

Section Commits.
Context {T L : Type} (zt : T) (cl : classifiers L) (count : bytes -> bytes -> bytes -> list (Z * line_type) * totals).
Context (orders : nat -> list (bytes * blame) -> list (bytes * blame)) (merge_orders : bytes -> Process.orders).
Context (skip : bytes -> pres unit) (disk : fs) (write_err : option bytes) (git : bound -> list bytes -> outcome bytes) (o : ropts) (s : setup T).
Context (Ep : su_prep_err s = None) (El : su_log_err s = None) (out : list result) (w : option (repo * bytes)).
Context (H5 : (log_run (su_text s)).2 = Ret tt) (H6 : run_top skip (api_env merge_orders git (su_graph s)) (process_opts o) disk (log_run (su_text s)).1 = (out, Ret tt, w)).
Context (ys : list (mcommit T * list (bresult T L))) (H7 : commits_for zt cl count (su_meta s) orders ∅ 0 out ys).
Lemma by_commit_delivers want quit : reads_all want quit ys ->
  delivers_commits (api_by_commit_act zt cl count orders merge_orders skip disk write_err git o s want quit) (api_by_commit_call s quit) write_err ys w.
Proof.
  intros Hall. unfold delivers_commits, api_by_commit_act, api_by_commit_call.
  destruct (bc_every_schedule zt cl count (su_meta s) orders ∅ skip (api_env merge_orders git (su_graph s)) (process_opts o) disk (su_text s) (su_prep_err s) (su_log_err s) write_err want quit 0
    out (Ret tt) w ys Ep El H5 H6 ltac:(done) H7 Hall) as [D1 D2].
  split; [exact D1|]. split; [|exact D2].
  destruct (bc_reaches_end zt cl count (su_meta s) orders ∅ skip (api_env merge_orders git (su_graph s)) (process_opts o) disk (su_text s) (su_prep_err s) (su_log_err s) write_err want quit 0
    out (Ret tt) w ys Ep El H6 ltac:(done) H7 Hall) as (cs & _ & Hreach). rewrite H5 in Hreach. cbn [p_end] in Hreach.
  eexists. split; [exact Hreach|]. apply bc_final. exists ys. unfold c_end. destruct (decide _); auto.
Qed.
Lemma readers_deliver k : length ys <= k ->
  delivers_to_readers (api_readers_act zt cl count orders merge_orders skip disk write_err git o s) (api_readers_call s k) write_err ys w.
Proof. intros Hk. by apply (rd_every_schedule zt cl count (su_meta s) orders ∅ skip (api_env merge_orders git (su_graph s)) (process_opts o) disk (su_text s) (su_prep_err s) (su_log_err s) write_err k
    out (Ret tt) w ys Ep El H5 H6 ltac:(done) H7 Hk). Qed.
Lemma by_commit_stuck want quit : ~ reads_all want quit ys ->
  never_returns (api_by_commit_act zt cl count orders merge_orders skip disk write_err git o s want quit) (api_by_commit_call s quit).
Proof.
  intros Hn c Hc. unfold api_by_commit_act, api_by_commit_call in Hc. destruct (first_unread want quit ys Hn) as (pre & c0 & x & post & E & H8 & H9). rewrite E in H7.
  destruct (bc_stuck zt cl count (su_meta s) orders ∅ skip (api_env merge_orders git (su_graph s)) (process_opts o) disk (su_text s) (su_prep_err s) (su_log_err s) write_err want quit 0
    out (Ret tt) w pre c0 x post Ep El H6 H7 H8 H9) as (wk & s0 & f & Hst & _ & Hi & Hf).
  destruct (stuck_everywhere zt cl count (su_meta s) orders ∅ skip (api_env merge_orders git (su_graph s)) (process_opts o) disk (su_text s) (su_prep_err s) (su_log_err s) write_err want quit 0
    wk s0 f Hst Hi Hf c Hc) as (G1 & G2 & _). done.
Qed.
End Commits.

Lemma commits_delivered {T L} (zt : T) (cl : classifiers L) count meta orders H slow line_ok about cs out xs ys cache n :
  (forall n, any_perm (orders n)) -> used_cache cl cache ->
  commits_for zt cl count meta orders cache n out ys -> map snd ys = xs -> map r_commit out = cs ->
  (forall c, c ∈ cs -> exists i, meta !! c = Some (meta_commit i (about c))) -> Forall2 (commit_records_right H slow line_ok) cs xs ->
  Forall2 (commit_delivered H slow line_ok about) cs ys.
Proof.
  intros Hord Hu Hcf. revert cs xs Hu. induction Hcf as [cache n|cache n r rs c cache' x ys Hc Hx _ IH]; intros cs xs Hu <- <- Hm HF; [constructor|].
  cbn [map] in *. inversion HF as [|a b l l' Hab HF']; subst. constructor.
  - split; [|split; [exact Hab|]].
    + destruct (Hm (r_commit r)) as [i Hi]; [left|]. exists i. cbn [fst]. rewrite Hc in Hi. by injection Hi.
    + cbn [fst snd]. intros y Hy. destruct (one_record_per_file zt cl count meta (orders n) cache r c cache' x (Hord n) Hu Hc Hx) as (_ & _ & H1).
      destruct (H1 y Hy) as (-> & f & Hf & Hst & _). split; [done|]. by exists f.
  - eapply IH; [by eapply files_used|reflexivity|reflexivity| |exact HF']. intros d Hd. apply Hm. by right.
Qed.

Lemma commits_numbered {T L} (zt : T) (cl : classifiers L) count (meta : gmap bytes (mcommit T)) orders about out ys cache n csm :
  commits_for zt cl count meta orders cache n out ys -> csm ≡ₚ map r_commit out ->
  (forall i c, csm !! i = Some c -> meta !! c = Some (meta_commit (S i) (about c))) ->
  map (fun y => mc_ordinal y.1) ys ≡ₚ map Z.of_nat (seq 1 (length ys)).
Proof.
  intros Hcf Hp Hm. set (F := fun c => match meta !! c with Some m => mc_ordinal m | None => 0%Z end).
  assert (E : map (fun y => mc_ordinal y.1) ys = map F (map r_commit out) /\ length ys = length (map r_commit out)).
  { clear -Hcf F. induction Hcf as [cache n|cache n r rs c cache' x ys Hc Hx _ [IH1 IH2]]; [done|]. cbn [map length fst]. rewrite IH1, IH2. split; [|done]. f_equal. unfold F. by rewrite Hc. }
  destruct E as [-> ->]. rewrite <- (Permutation_length Hp), <- Hp. clear -Hm. cut (map F csm = map Z.of_nat (seq 1 (length csm))); [by intros ->|]. apply list_eq. intros i.
  change (map F csm) with (F <$> csm). change (map Z.of_nat (seq 1 (length csm))) with (Z.of_nat <$> seq 1 (length csm)). rewrite !list_lookup_fmap.
  destruct (csm !! i) as [c|] eqn:Ei; cbn [fmap option_fmap option_map].
  - rewrite lookup_seq_lt by (by eapply lookup_lt_Some). cbn. f_equal. unfold F. by rewrite (Hm i c Ei).
  - apply lookup_ge_None in Ei. by rewrite lookup_seq_ge.
Qed.

(** The whole call, as [call_delivers]. *)
Lemma call_commits {T L} (zt : T) parse_date graph_order merge_orders git tmp repo_dir o k R H about :
  usable k parse_date R H about -> answers R H about git (graph_revs o) (patch_revs o) -> forall f0 f1, tmp 0 = Ret f0 -> tmp 1 = Ret f1 ->
  (forall g, graph_order g ≡ₚ map_to_list g) -> (forall c, any_orders (merge_orders c)) ->
  (forall c, shows R (patch_revs o) c -> selected R (ro_all o) c) -> forall r0, checkpoint_right H (fallback git) r0 ->
  (forall c q, shows R (patch_revs o) c -> parent (hi_parents H) c q -> ~ shows R (patch_revs o) q -> is_Some (r0 !! q)) ->
  forall (cl : classifiers L) count orders skip disk write_err, (forall n, any_perm (orders n)) -> detector_works cl -> init_checkpoints skip (process_opts o) disk = Ret r0 ->
  exists s, code_setup zt parse_date graph_order git tmp repo_dir o = Ret s /\
  let act := api_by_commit_act zt cl count orders merge_orders skip disk write_err git o s in
  exists cs ys w, lists_exactly cs (shows R (patch_revs o)) /\ children_last (g_parents R) cs /\
    Forall2 (commit_delivered H (fallback git) (if decide (r0 = ∅) then line_right (map about cs) else line_since zt (map about cs)) about) cs ys /\ numbered ys /\
    leaves_checkpoint H (fallback git) r0 cs w /\
    (forall want quit, reads_all want quit ys -> delivers_commits (act want quit) (api_by_commit_call s quit) write_err ys w) /\
    (forall want quit, ~ reads_all want quit ys -> never_returns (act want quit) (api_by_commit_call s quit)) /\
    (forall k, length ys <= k -> delivers_to_readers (api_readers_act zt cl count orders merge_orders skip disk write_err git o s) (api_readers_call s k) write_err ys w) /\
    delivers (api_act zt cl count orders merge_orders skip disk write_err git o s) write_err (concat (map snd ys)) w.
Proof.
  intros HU HA f0 f1 Ht0 Ht1 Hgo Hmo Hsub r0 Hr0 Hpres cl count orders skip disk write_err Hord Hdet Hinit.
  destruct (call_runs zt parse_date graph_order merge_orders git tmp repo_dir o k R H about HU HA f0 f1 Ht0 Ht1 Hgo Hmo Hsub r0 Hr0 Hpres cl count orders skip disk Hord Hdet Hinit)
    as (s & Es & Ep & El & cs & xs & w & out & H1 & H2 & H3 & H4 & H5 & H6 & H7 & H8 & csm & Hp & H9).
  destruct (commits_of_records zt cl count (su_meta s) orders ∅ 0 out xs H7) as (ys & Hys & Exs).
  exists s. split; [exact Es|]. cbv zeta. exists cs, ys, w. split; [exact H1|]. split; [exact H2|].
  split.
  { eapply commits_delivered; [exact Hord|apply used_new|exact Hys|exact Exs|exact H8| |exact H3]. intros c Hc. rewrite <- Hp in Hc. apply elem_of_list_lookup in Hc as [i Hi]. exists (S i). by apply H9. }
  split; [unfold numbered; eapply commits_numbered; [exact Hys|by rewrite H8|exact H9]|]. split; [exact H4|].
  split; [intros want quit; by eapply by_commit_delivers|]. split; [intros want quit; by eapply by_commit_stuck|]. split; [intros k' Hk'; by eapply readers_deliver|]. rewrite Exs.
  exact (delivers_of_run zt cl count orders merge_orders skip disk write_err git o s Ep El out w xs H5 H6 H7).
Qed.
