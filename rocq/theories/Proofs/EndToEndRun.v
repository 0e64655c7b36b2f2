(** * From the texts of the two logs to the records on the channel: proofs for C60 *)
From Verif.Model Require Import Base GoStrings IncBlame LogParser ParentsGraph Process Msgp Checkpoint CheckpointFS CommitMeta FileInfo CodeInfo Net Pipeline.
From Verif.Spec Require Import Text UnifiedDiff Attribution GitLog CommitGraph History Processing Records MetaLog EndToEnd Delivery.
From Verif.Proofs Require Import TextLemmas LogParse ProcessTop ResumeTop RecordProofs RecordMore EndToEndProofs PipelineProofs PipelineMore.
From Verif.Props Require Import MetaProps ProcessProps RecordProps PipelineProps.
From Coq Require Import Lia.

Section Used.
Context {T L : Type} (zt : T) (cl : classifiers L) (count : bytes -> bytes -> bytes -> list (Z * line_type) * totals) (meta : gmap bytes (mcommit T)).

Lemma step_used commit st kv st' :
  used_cache cl st.1 -> code_info_step zt cl count meta commit st kv = Ret st' -> used_cache cl st'.1.
Proof.
  destruct st as [cache acc], kv as [p b]. intros Hu. unfold code_info_step. destruct (beq p []); [intros [= <-]; done|].
  destruct (mc_files commit !! p) as [f|]; [|intros [= <-]; done]. destruct (decide _); [intros [= <-]; done|].
  destruct (get_info cl cache p _ _) as [[i c']| |] eqn:E; cbn [obind]; [|done..].
  destruct (bool_decide _); intros [= <-]; by eapply used_more.
Qed.
Lemma files_used order cache x cache' rs :
  used_cache cl cache -> code_info_files zt cl count meta order cache x = Ret (cache', rs) -> used_cache cl cache'.
Proof.
  intros Hu. unfold code_info_files. destruct (forallb _ _); [|done].
  assert (Hfold : forall l st st', used_cache cl st.1 -> ofold (code_info_step zt cl count meta (meta_of zt meta (r_commit x))) st l = Ret st' -> used_cache cl st'.1).
  { induction l as [|kv l IH]; intros st st' Hs; cbn [ofold]; [by intros [= <-]|].
    destruct (code_info_step _ _ _ _ _ st kv) as [st1| |] eqn:E; cbn [obind]; [|done..]. apply IH. by eapply step_used. }
  intros E. exact (Hfold _ _ _ (Hu : used_cache cl (cache, @nil (bresult T L)).1) E).
Qed.
End Used.

Section Run.
Context {T L : Type} (zt : T) (parse_date : bytes -> option T) (cl : classifiers L).
Context (count : bytes -> bytes -> bytes -> list (Z * line_type) * totals) (orders : nat -> list (bytes * blame) -> list (bytes * blame)).
Context (k : nat) (H : history) (slow : bytes -> bytes -> outcome blame) (e : env) (cs : list bytes).
Context (es : list (meta_entry T)) (ls : list bytes).
Context (before : list bytes) (r0 : repo) (HR : run_ready H slow k e before r0 cs) (HG : UnifiedDiff.short_lines (log_lines (git_log H cs))).
Context (HW : Forall (MetaLog.wf_meta parse_date) es) (HL : meta_log es ls) (HS : MetaProps.short_lines ls) (HM : metadata_for H cs es).
Context (Hord : forall n, any_perm (orders n)) (Hdet : detector_works cl).
Notation meta := (run_map zt parse_date (unlines ls)).1.

Context (line_ok : line -> bline T -> Prop).
Context (Hline : forall c f b l bl, c ∈ cs -> is_Some (hi_tree H c !! f) -> blame_of H slow c f b -> l ∈ b_lines b -> bl_sha bl = l_commit l ->
  bl_name bl = mc_author_name (meta_of zt meta (l_commit l)) -> bl_email bl = mc_author_email (meta_of zt meta (l_commit l)) -> bl_date bl = mc_date (meta_of zt meta (l_commit l)) ->
  line_ok l bl).
Lemma records_for_commits cs' out cache n : (forall c, c ∈ cs' -> c ∈ cs) -> Forall2 (commit_right H slow) cs' out -> used_cache cl cache ->
  exists xs, records_for zt cl count meta orders cache n out xs /\ Forall2 (commit_records_right H slow line_ok) cs' xs.
Proof.
  intros Hin HF. revert cache n Hin. induction HF as [|c res cs' out Hc _ IH]; intros cache n Hin Hu.
  - exists []. split; constructor.
  - assert (Hcc : c ∈ cs) by (apply Hin; left).
    destruct (records_of_commit zt parse_date cl count k H slow e cs es ls before r0 HR HW HL HS HM line_ok Hline (orders n) cache c res (Hord n) Hu Hdet Hcc Hc) as (cache' & rs & E & H1 & H2).
    destruct (IH cache' (S n)) as (xs & Hxs & HF'); [intros d Hd; apply Hin; by right|by eapply files_used|].
    exists (rs :: xs). split.
    + econstructor; [|exact E|exact Hxs]. assert (r_commit res = c) as -> by (unfold commit_right in Hc; destruct (decide _); apply Hc).
      destruct (meta_some H cs es HM c Hcc) as (i & m & Hi & <-). rewrite (meta_at zt parse_date k H slow e cs es ls before r0 HR HW HL HS HM i m Hi). by eexists.
    + constructor; [|done]. unfold commit_records_right. destruct (decide _); [by apply H2|apply H1; lia].
Qed.

Lemma run_from skip o disk : init_checkpoints skip o disk = Ret r0 ->
  exists out w, run_top skip e o disk (log_run (render_log (git_log H cs))).1 = (out, Ret tt, w) /\ Forall2 (commit_right H slow) cs out /\
    match w with Some (r, v) => last cs = Some v /\ exists s, process_log e (pst_init r0) (map commit_of (git_log H cs)) = (s, Ret tt) /\ r = s_repo s | None => cs = [] end.
Proof.
  intros Ho. destruct (C27_results_right_partial k H slow e before r0 cs HR HG) as (s & Hs & HF).
  pose proof HR as [HV _ _ _ _ _ Hcs _].
  assert (Hlog : (log_run (render_log (git_log H cs))).1 = map commit_of (git_log H cs)).
  { by rewrite (log_of_history k H HV cs (fun c Hc => proj1 (Hcs c Hc)) HG). }
  rewrite Hlog in *. unfold run_top. rewrite Ho.
  destruct (map commit_of (git_log H cs)) as [|g gs] eqn:Eg.
  - exists [], None. unfold process_log in Hs. cbn in Hs. injection Hs as <-. split; [done|]. cbn in HF. split; [done|by inversion HF].
  - rewrite Hs. cbn [fst snd].
    assert (Hlast : exists v, last cs = Some v /\ s_last s = v /\ v <> []).
    { destruct (exists_last (l := cs)) as (cs0 & c & ->).
      { intros ->. discriminate Eg. }
      exists c. rewrite last_snoc. split; [done|]. assert (Hc : is_Some (hi_parents H !! c)) by (apply Hcs, elem_of_app; right; left).
      assert (Hid : commit_id c) by (by destruct (proj2 HV c Hc)).
      assert (Hent : exists l0 en, entries_of H c = l0 ++ [en] /\ le_hash en = c).
      { unfold entries_of. destruct (hparents H c) as [|p0 [|p1 ps]]; [by exists [], (entry_of H c None (hi_diff H c []))|by exists [], (entry_of H c None (hi_diff H c p0))|].
        destruct (filter _ (p0 :: p1 :: ps)) as [|q qs]; [by exists [], (entry_of H c None [])|].
        destruct (exists_last (l := q :: qs)) as (q0 & q' & E); [done|]. rewrite E, map_app. eexists _, _. split; [reflexivity|done]. }
      destruct Hent as (l0 & en & Een & Hh). unfold git_log in Eg. rewrite map_app, concat_app, map_app in Eg. cbn [map concat] in Eg. rewrite app_nil_r, Een, map_app, app_assoc in Eg.
      cbn [map] in Eg. rewrite <- Eg in Hs. apply log_last in Hs. cbn [commit_of lc_hash] in Hs. rewrite Hh in Hs. split; [done|apply Hid]. }
    destruct Hlast as (v & Hv & Esl & Hne). rewrite decide_False by (by rewrite Esl).
    exists (s_out s), (Some (s_repo s, s_last s)). split; [done|]. split; [done|]. rewrite Esl. split; [exact Hv|]. by exists s.
Qed.
(** What the goroutines work on, and the records to be delivered. *)
Lemma run_records skip o disk : init_checkpoints skip o disk = Ret r0 ->
  exists xs w out, Forall2 (commit_records_right H slow line_ok) cs xs /\
    match w with Some (r, v) => last cs = Some v /\ exists s, process_log e (pst_init r0) (map commit_of (git_log H cs)) = (s, Ret tt) /\ r = s_repo s | None => cs = [] end /\
    (log_run (render_log (git_log H cs))).2 = Ret tt /\ run_top skip e o disk (log_run (render_log (git_log H cs))).1 = (out, Ret tt, w) /\
    records_for zt cl count meta orders ∅ 0 out xs /\ map r_commit out = cs.
Proof.
  intros Ho.
  destruct (run_from skip o disk Ho) as (out & w & E & HF & Hw).
  destruct (records_for_commits cs out ∅ 0 (fun c Hc => Hc) HF (used_new cl)) as (xs & Hxs & HFx).
  assert (Hlog : (log_run (render_log (git_log H cs))).2 = Ret tt).
  { pose proof HR as [HV _ _ _ _ _ Hcs _]. by rewrite (ProcessTop.log_of_history k H HV cs (fun c Hc => proj1 (Hcs c Hc)) HG). }
  exists xs, w, out. split; [exact HFx|]. split; [exact Hw|]. split; [exact Hlog|]. split; [exact E|]. split; [exact Hxs|].
  clear -HF. induction HF as [|c res cs' out Hc _ IH]; [done|]. cbn [map]. rewrite IH. f_equal. unfold commit_right in Hc. destruct (decide _); apply Hc.
Qed.
Lemma run_delivers skip o disk write_err : init_checkpoints skip o disk = Ret r0 ->
  let act := act zt cl count meta orders ∅ skip e o disk (render_log (git_log H cs)) None None write_err in
  exists xs w, Forall2 (commit_records_right H slow line_ok) cs xs /\
    match w with Some (r, v) => last cs = Some v /\ exists s, process_log e (pst_init r0) (map commit_of (git_log H cs)) = (s, Ret tt) /\ r = s_repo s | None => cs = [] end /\
    (exists n, forall m c, nsteps (step act) m code_call c -> m <= n) /\
    forall c, rtc (step act) code_call c ->
      ~ crashing act c /\ received c `prefix_of` concat xs /\ (c_res ∈ closed c -> received c = concat xs) /\
      (final act c -> all_ended c /\ received c = concat xs /\ c_res ∈ closed c /\ returned c = Some (with_write write_err (Ret tt) w, w)).
Proof.
  intros Ho act0. destruct (run_records skip o disk Ho) as (xs & w & out & HFx & Hw & Hlog & E & Hxs & _).
  exists xs, w. split; [exact HFx|]. split; [exact Hw|].
  exact (C53_every_schedule zt cl count meta orders ∅ skip e o disk (render_log (git_log H cs)) write_err out w xs Hlog E Hxs).
Qed.
End Run.
