(** * Properties C53, C54, C59: the goroutines of a Code call

    [code_call] is the call with the caller receiving until the channel is closed; [rtc step code_call c]: some schedule leads to [c]. *)
From Verif.Model Require Import Base GoStrings IncBlame LogParser ParentsGraph Process Msgp Checkpoint CheckpointFS CommitMeta FileInfo CodeInfo Net Pipeline.
From Verif.Spec Require Import Text UnifiedDiff GitLog History Processing Records Delivery.
From Verif.Proofs Require Import NetProofs PipelineProofs PipelineMore PipelineCrash ProcessExamples CheckpointExamples.
From Verif.Props Require Import RecordProps.

Section Props.
Context {T L : Type} (zero_time : T) (cl : classifiers L).
Context (count : bytes -> bytes -> bytes -> list (Z * line_type) * totals) (meta : gmap bytes (mcommit T)).
Context (orders : nat -> list (bytes * blame) -> list (bytes * blame)) (cache0 : gmap bytes bytes).
Context (skip : bytes -> pres unit) (e : env) (o : popts) (disk : fs) (text : bytes).
Notation act prep log wr := (act zero_time cl count meta orders cache0 skip e o disk text prep log wr).
Notation step prep log wr := (step (act prep log wr)).
Notation records := (records_for zero_time cl count meta orders cache0 0).
Notation call := (code_call (T := T) (L := L)).

(** C53: under every schedule the caller receives the records of the first result, then of the second, and so on; each once.  Nothing
    panics (so no channel is closed twice), nothing deadlocks, the number of steps is bounded; when the channel is closed everything
    was received; when nothing can happen any more the call and all goroutines have returned. *)
Theorem C53_every_schedule write_err out w xs :
  (log_run text).2 = Ret tt -> run_top skip e o disk (log_run text).1 = (out, Ret tt, w) -> records out xs ->
  (exists n, forall m c, nsteps (step None None write_err) m call c -> m <= n) /\
  forall c, rtc (step None None write_err) call c ->
    ~ crashing (act None None write_err) c /\ received c `prefix_of` concat xs /\ (c_res ∈ closed c -> received c = concat xs) /\
    (final (act None None write_err) c ->
       all_ended c /\ received c = concat xs /\ c_res ∈ closed c /\ returned c = Some (with_write write_err (Ret tt) w, w)).
Proof. intros H1 H2 H3. by eapply every_schedule. Qed.

(** C54: the same if the run fails at some commit: the records of the results before are delivered, then the channel is closed and the error
    returned. *)
Theorem C54_error_ends_stream_partial write_err out err w xs :
  (log_run text).2 = Ret tt -> run_top skip e o disk (log_run text).1 = (out, Err err, w) -> records out xs ->
  (exists n, forall m c, nsteps (step None None write_err) m call c -> m <= n) /\
  forall c, rtc (step None None write_err) call c ->
    ~ crashing (act None None write_err) c /\ received c `prefix_of` concat xs /\ (c_res ∈ closed c -> received c = concat xs) /\
    (final (act None None write_err) c ->
       all_ended c /\ received c = concat xs /\ c_res ∈ closed c /\ returned c = Some (Err err, None)).
Proof.
  intros H1 H2 H3.
  assert (w = None) as ->.
  { unfold run_top in H2. destruct (log_run text).1; [done|]. destruct (init_checkpoints skip o disk); [|by injection H2..].
    destruct (process_log e _ _) as [s [[]|m|m]]; cbn [fst snd] in H2; [destruct (decide _)| |]; by injection H2. }
  destruct (every_schedule zero_time cl count meta orders cache0 skip e o disk text None None write_err out (Err err) None xs
    eq_refl eq_refl H1 H2 ltac:(done) H3) as [Hb Hc].
  split; [exact Hb|]. intros c Hr. exact (Hc c Hr).
Qed.

(** Errors before the log is read: of the preparation (commit graph, metadata), of starting git. *)
Theorem C54_early_error prep_err log_err write_err m :
  prep_err = Some m \/ (prep_err = None /\ log_err = Some m) ->
  (exists n, forall k c, nsteps (step prep_err log_err write_err) k call c -> k <= n) /\
  forall c, rtc (step prep_err log_err write_err) call c -> ~ crashing (act prep_err log_err write_err) c /\ received c = [] /\
    (final (act prep_err log_err write_err) c -> all_ended c /\ c_res ∈ closed c /\ returned c = Some (Err m, None)).
Proof. intros [Hp|[Hp Hl]]; [by apply schedule_of_prep_error|by apply schedule_of_log_error]. Qed.

(** C53 if the main goroutine panics: what the caller received until then are records of computed results, in order; it does not see
    the channel closed. *)
Theorem C54_panic_prefix write_err out m w xs :
  run_top skip e o disk (log_run text).1 = (out, Panic m, w) -> records out xs ->
  forall c, rtc (step None None write_err) call c -> received c `prefix_of` concat xs /\ c_res ∉ closed c.
Proof. intros H1 H2 c Hc. by destruct (schedule_of_panic zero_time cl count meta orders cache0 skip e o disk text None None write_err out m w xs eq_refl eq_refl H1 H2 c Hc) as (A & B0 & _). Qed.

(** C54 if the goroutine that makes the records panics, at the first result [r] for which there are no records: the caller gets the records
    of the results before it, never sees the channel closed, the call does not return, and the program ends with the panic. *)
Theorem C54_worker_panic write_err pre r post oc w xs :
  run_top skip e o disk (log_run text).1 = (pre ++ r :: post, oc, w) -> records pre xs -> (forall xs', ~ records (pre ++ [r]) xs') ->
  forall c, rtc (step None None write_err) call c ->
    received c `prefix_of` concat xs /\ c_res ∉ closed c /\ returned c = None /\
    (final (act None None write_err) c -> received c = concat xs /\ crashing (act None None write_err) c).
Proof. intros H1 H2 H3. by eapply schedule_of_worker_panic. Qed.

(** C70 is false: if the log of the patches shows a commit [c] that the metadata log, taken before, did not have, the call never returns
    without an error; it ends with an error of Run or the program ends with a panic. *)
Theorem C70_added_commit_refuted write_err out oc w c :
  (log_run text).2 = Ret tt -> c ∈ (log_run text).1 -> meta !! lc_hash c = None -> run_top skip e o disk (log_run text).1 = (out, oc, w) ->
  forall k, rtc (step None None write_err) call k ->
    (forall w', returned k <> Some (Ret tt, w')) /\
    (final (act None None write_err) k -> crashing (act None None write_err) k \/ exists m, returned k = Some (Err m, None)).
Proof.
  intros Hpo Hc Hm Hrun k Hk. destruct (records_or_crash zero_time cl count meta orders out cache0 0) as [[xs Hxs]|(pre & r & post & xs & -> & H1 & H2)].
  - destruct oc as [[]|m|m].
    + exfalso. unfold run_top in Hrun. destruct (log_run text).1 as [|c0 cs] eqn:El; [by apply elem_of_nil in Hc|]. destruct (init_checkpoints skip o disk) as [r0|m|m]; [|done..].
      destruct (process_log e (pst_init r0) (c0 :: cs)) as [s [[]|m|m]] eqn:Es; [|done..]. destruct (log_covers _ _ _ _ _ Es Hc) as (r & Hr & Er).
      assert (Ho : s_out s = out) by (cbn [fst snd] in Hrun; destruct (decide _); by injection Hrun).
      assert (Hall : forall ca n rs ys, records_for zero_time cl count meta orders ca n rs ys -> forall q, q ∈ rs -> is_Some (meta !! r_commit q)).
      { clear. induction 1 as [|ca n a rs ca' x ys Ha _ _ IH]; intros q Hq; [by apply elem_of_nil in Hq|]. apply elem_of_cons in Hq as [->|Hq]; [done|by apply IH]. }
      rewrite Ho in Hr. apply (Hall _ _ _ _ Hxs) in Hr. rewrite Er, Hm in Hr. by destruct Hr.
    + destruct (C54_error_ends_stream_partial write_err out m w xs Hpo Hrun Hxs) as [_ Hall]. destruct (Hall k Hk) as (_ & _ & _ & Hf).
      assert (w = None) as ->.
      { unfold run_top in Hrun. destruct (log_run text).1; [done|]. destruct (init_checkpoints skip o disk); [|by injection Hrun..].
        destruct (process_log e _ _) as [s [[]|m'|m']]; cbn [fst snd] in Hrun; [destruct (decide _)| |]; by injection Hrun. }
      split; [|intros Hfin; right; destruct (Hf Hfin) as (_ & _ & _ & E); by eexists].
      destruct (call_reaches_end zero_time cl count meta orders cache0 skip e o disk text None None write_err out (Err m) None xs eq_refl eq_refl Hrun Hxs) as (f & Hf' & Hend).
      pose proof (call_end_final zero_time cl count meta orders cache0 skip e o disk text None None write_err _ _ _ _ _ Hend) as Hfin.
      destruct (reaches_end zero_time cl count meta orders cache0 skip e o disk text None None write_err f Hf' Hfin k Hk) as [Hkf _].
      intros w' Hret. unfold returned in Hret. destruct (locals k !! 0) as [[[]| | | | |]|] eqn:E0; try done. injection Hret as -> ->.
      pose proof (stop_stays _ _ _ 0 (LM (MStop (Ret tt) w')) Hkf eq_refl E0) as Hx. destruct Hend as (cs & _ & ->). discriminate Hx.
    + destruct (panic_no_return zero_time cl count meta orders cache0 skip e o disk text None None write_err out m w xs eq_refl eq_refl Hrun Hxs k Hk) as [E Hf].
      rewrite E. split; [done|]. intros Hfin. left. by apply Hf.
  - destruct (C54_worker_panic write_err pre r post oc w xs Hrun H1 H2 k Hk) as (_ & _ & E & Hf). rewrite E. split; [done|]. intros Hfin. left. by apply Hf.
Qed.

(** C54, C59 and C11 are false if the parser of the log fails (a line of 100 MB or a line it cannot parse): the run goes on with the
    commits it got before, and a checkpoint is written for the last of them in every schedule before the parser's panic ends the program;
    there are schedules in which the call returns without an error before that. *)
Theorem C59_parser_failure_refuted write_err out w xs :
  (log_run text).2 <> Ret tt -> run_top skip e o disk (log_run text).1 = (out, Ret tt, Some w) -> records out xs ->
  (forall c, rtc (step None None write_err) call c -> parser_panics c -> checkpoint_passed c w) /\
  exists c, rtc (step None None write_err) call c /\ parser_panics c /\ received c = concat xs /\ c_res ∈ closed c /\
    returned c = Some (with_write write_err (Ret tt) (Some w), Some w).
Proof. intros H1 H2 H3. by eapply schedule_of_parser_failure. Qed.
End Props.
Print Assumptions C53_every_schedule.
Print Assumptions C54_error_ends_stream_partial.
Print Assumptions C54_early_error.
Print Assumptions C54_panic_prefix.
Print Assumptions C54_worker_panic.
Print Assumptions C70_added_commit_refuted.
Print Assumptions C59_parser_failure_refuted.

(** ** Concrete calls *)

Section Check.
Context {T L : Type} (zero_time : T) (cl : classifiers L).
Context (count : bytes -> bytes -> bytes -> list (Z * line_type) * totals) (meta : gmap bytes (mcommit T)).
Context (orders : nat -> list (bytes * blame) -> list (bytes * blame)).
Fixpoint records_run (cache : gmap bytes bytes) (n : nat) (rs : list result) : option (list (list (bresult T L))) :=
  match rs with
  | [] => Some []
  | r :: rs =>
      match meta !! r_commit r, code_info_files zero_time cl count meta (orders n) cache r with
      | Some _, Ret (cache', x) => match records_run cache' (S n) rs with Some xs => Some (x :: xs) | None => None end
      | _, _ => None
      end
  end.
Lemma records_run_right rs : forall cache n xs, records_run cache n rs = Some xs -> records_for zero_time cl count meta orders cache n rs xs.
Proof.
  induction rs as [|r rs IH]; intros cache n xs; cbn [records_run]; [intros [= <-]; constructor|].
  destruct (meta !! r_commit r) as [cm|] eqn:Em; [|done]. destruct (code_info_files _ _ _ _ _ _ r) as [[c' x]|?|?] eqn:Ec; [|done..].
  destruct (records_run c' (S n) rs) as [ys|] eqn:Er; [|done]. intros [= <-]. econstructor; [by eexists|exact Ec|by apply IH].
Qed.
End Check.

(** Metadata of the commits of ex_hist; each lists f, g and h. *)
Definition pl_meta : gmap bytes (mcommit N) :=
  list_to_map (map (fun c => (c, ex_commit c (B "Ann") [(f_, plain_file f_ Modified); (g_, plain_file g_ Added); (h_, plain_file h_ Added)])) ex_commits).
Definition pl_orders (n : nat) (l : list (bytes * blame)) : list (bytes * blame) := if Nat.even n then l else rev l.
Definition pl_cl : classifiers N :=
  Classifiers N (fun _ => false) (fun _ => false) (fun _ => false) (fun _ _ => B "Go") (fun _ _ => Ret None).
Definition pl_run (H : history) (text : bytes) : list result * outcome unit * option (repo * bytes) :=
  run_top no_skip (ex_env H rev_orders) (POpts [] false false false []) (FS None None) (log_run text).1.
Definition pl_records (x : list result) : option (list (list (bresult N N))) := records_run 0%N pl_cl ex_count pl_meta pl_orders ∅ 0 x.

Definition pl_names (x : list result) : option (list (bytes * bytes * nat)) :=
  (fun xs => map (fun r => (mc_sha (br_commit r), br_filename r, length (br_lines r))) (concat xs)) <$> pl_records x.
(** A history whose second commit changes a file that is not there. *)
Definition pl_bad : history := History ex_parents (hi_tree ex_hist)
  (fun c p => pick [] [(a1, D_a); (b2, D_de)] c) Proofs.ProcessExamples.ex_meta.
Definition pl_good_text : bytes := render_log (git_log ex_hist ex_commits).

Definition pl_cut_text : bytes := render_log (git_log ex_hist [a1; b2]) ++ [NL] ++ B "error: inflate: data stream error" ++ [NL].

(** What is needed of a run: it ends like this, and there are records for its results. *)
Lemma pl_shape (x : list result * outcome unit * option (repo * bytes)) oc names (v : option bytes) :
  (x.1.2, pl_names x.1.1, snd <$> x.2) = (oc, Some names, v) ->
  exists out w xs, x = (out, oc, w) /\ (snd <$> w) = v /\ records_for 0%N pl_cl ex_count pl_meta pl_orders ∅ 0 out xs /\
    map (fun r => (mc_sha (br_commit r), br_filename r, length (br_lines r))) (concat xs) = names.
Proof.
  destruct x as [[out oc'] w]. cbn [fst snd]. intros [= <- Hn Hv]. unfold pl_names in Hn. destruct (pl_records out) as [xs|] eqn:E; [|discriminate Hn].
  injection Hn as Hn. exists out, w, xs. split; [reflexivity|]. split; [exact Hv|]. split; [by apply records_run_right|exact Hn].
Qed.

(** ex_hist: five commits; six entries of the log; a record for each result. *)
Example C53_hypotheses_hold :
  (log_run pl_good_text).2 = Ret tt /\
  exists out w xs, pl_run ex_hist pl_good_text = (out, Ret tt, w) /\ snd <$> w = Some e5 /\
    records_for 0%N pl_cl ex_count pl_meta pl_orders ∅ 0 out xs /\
    map (fun r => (mc_sha (br_commit r), br_filename r, length (br_lines r))) (concat xs) =
      [(a1, f_, 1); (b2, f_, 2); (c3, g_, 1); (d4, f_, 3); (e5, h_, 1)].
Proof. split; [lk|]. apply pl_shape. lk. Qed.
(** The second commit renames a file that is not there: an error after the record of the first one. *)
Example C54_hypotheses_hold :
  (log_run (render_log (git_log pl_bad [a1; b2]))).2 = Ret tt /\
  exists out w xs, pl_run pl_bad (render_log (git_log pl_bad [a1; b2])) = (out, Err (B "file is missing in commit"), w) /\ snd <$> w = None /\
    records_for 0%N pl_cl ex_count pl_meta pl_orders ∅ 0 out xs /\
    map (fun r => (mc_sha (br_commit r), br_filename r, length (br_lines r))) (concat xs) = [(a1, f_, 1)].
Proof. split; [lk|]. apply pl_shape. lk. Qed.
(** The last commit's parent is not in the log: a panic after two records. *)
Example C54_panic_hypotheses_hold :
  exists out w xs, pl_run ex_hist (render_log (git_log ex_hist [a1; c3; e5])) = (out, Panic (B "commit not found"), w) /\ snd <$> w = None /\
    records_for 0%N pl_cl ex_count pl_meta pl_orders ∅ 0 out xs /\
    map (fun r => (mc_sha (br_commit r), br_filename r, length (br_lines r))) (concat xs) = [(a1, f_, 1); (c3, g_, 1)].
Proof. apply pl_shape. lk. Qed.
(** An error message between the lines of the log, after the second commit. *)
Example C59_parser_failure_hypotheses_hold :
  (log_run pl_cut_text).2 <> Ret tt /\
  exists out w xs, pl_run ex_hist pl_cut_text = (out, Ret tt, w) /\ snd <$> w = Some b2 /\
    records_for 0%N pl_cl ex_count pl_meta pl_orders ∅ 0 out xs /\
    map (fun r => (mc_sha (br_commit r), br_filename r, length (br_lines r))) (concat xs) = [(a1, f_, 1); (b2, f_, 2)].
Proof. split; [vm_compute; discriminate|]. apply pl_shape. lk. Qed.

(** The metadata of the last commit, which was added later, is missing: a panic after the records of the first four. *)
Definition pl_stale : gmap bytes (mcommit N) := delete e5 pl_meta.
(** The graph is read first of all, so it does not have the commit either. *)
Definition pl_stale_run : list result * outcome unit * option (repo * bytes) :=
  run_top no_skip (ex_env ex_early rev_orders) (POpts [] false false false []) (FS None None) (log_run pl_good_text).1.
Example C70_hypotheses_hold :
  (log_run pl_good_text).2 = Ret tt /\ (exists c, c ∈ (log_run pl_good_text).1 /\ lc_hash c = e5 /\ pl_stale !! lc_hash c = None) /\
  hi_parents ex_early !! e5 = None /\ exists out m w, pl_stale_run = (out, Panic m, w) /\ map r_commit out = [a1; b2; c3; d4].
Proof.
  split; [lk|]. split.
  - destruct (last (log_run pl_good_text).1) as [c|] eqn:E; [|vm_compute in E; discriminate E]. exists c. split; [apply last_Some in E as [l E]; rewrite E; apply elem_of_app; right; apply elem_of_list_here|].
    assert (Eh : lc_hash <$> last (log_run pl_good_text).1 = Some e5) by lk. rewrite E in Eh. injection Eh as Eh. rewrite Eh. split; [reflexivity|lk].
  - split; [lk|]. destruct pl_stale_run as [[out oc] w] eqn:E. assert (Eo : (map r_commit pl_stale_run.1.1, match pl_stale_run.1.2 with Panic _ => true | _ => false end) = ([a1; b2; c3; d4], true)) by lk.
    rewrite E in Eo. cbn [fst snd] in Eo. injection Eo as E1 E2. destruct oc as [[]|m|m]; [discriminate E2..|]. exists out, m, w. split; [reflexivity|exact E1].
Qed.
(** With the whole graph, the panic of C54_worker_panic. *)
Example C54_worker_panic_hypotheses_hold :
  exists pre r post oc w xs, pl_run ex_hist pl_good_text = (pre ++ r :: post, oc, w) /\ r_commit r = e5 /\
    records_for 0%N pl_cl ex_count pl_stale pl_orders ∅ 0 pre xs /\ (forall xs', ~ records_for 0%N pl_cl ex_count pl_stale pl_orders ∅ 0 (pre ++ [r]) xs') /\
    map (fun r => (mc_sha (br_commit r), br_filename r, length (br_lines r))) (concat xs) = [(a1, f_, 1); (b2, f_, 2); (c3, g_, 1); (d4, f_, 3)].
Proof.
  destruct (pl_run ex_hist pl_good_text) as [[out oc] w] eqn:E.
  assert (El : r_commit <$> last (pl_run ex_hist pl_good_text).1.1 = Some e5) by lk. rewrite E in El. cbn [fst] in El.
  destruct (last out) as [r|] eqn:Er; [|discriminate El]. injection El as El. apply last_Some in Er as [pre ->].
  assert (Ex : (fun xs => map (fun r => (mc_sha (br_commit r), br_filename r, length (br_lines r))) (concat xs)) <$>
     records_run 0%N pl_cl ex_count pl_stale pl_orders ∅ 0 (removelast (pl_run ex_hist pl_good_text).1.1) = Some [(a1, f_, 1); (b2, f_, 2); (c3, g_, 1); (d4, f_, 3)]) by lk.
  rewrite E in Ex. cbn [fst] in Ex. rewrite removelast_last in Ex. destruct (records_run _ _ _ _ _ _ _ pre) as [xs|] eqn:Ep; [|discriminate Ex]. injection Ex as Ex.
  exists pre, r, [], oc, w, xs. split; [reflexivity|]. split; [exact El|]. split; [by apply records_run_right|]. split; [|exact Ex].
  intros xs' Hx. assert (Hall : forall ca n rs (ys : list (list (bresult N N))), records_for 0%N pl_cl ex_count pl_stale pl_orders ca n rs ys -> forall q, q ∈ rs -> is_Some (pl_stale !! r_commit q)).
  { clear. induction 1 as [|ca n a rs ca' x ys Ha _ _ IH]; intros q Hq; [by apply elem_of_nil in Hq|]. apply elem_of_cons in Hq as [->|Hq]; [done|by apply IH]. }
  specialize (Hall _ _ _ _ Hx r). rewrite El in Hall. destruct Hall as [z Hz]; [apply elem_of_app; right; apply elem_of_list_here|]. vm_compute in Hz. discriminate Hz.
Qed.
