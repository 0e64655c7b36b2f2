(** * C99: the statistics of a run *)
From Verif.Model Require Import Base GoStrings IncBlame LogParser ParentsGraph Process Timing Msgp Checkpoint CheckpointFS CommitMeta FileInfo CodeInfo Net Pipeline Stats.
From Verif.Spec Require Import GitLog History Processing Delivery Records Statistics.
From Verif.Proofs Require Import StatsProofs ProcessExamples CheckpointExamples.
From Verif.Props Require Import ProcessProps RecordProps PipelineProps.
From Coq Require Import Lia.

(** The run that is measured is the run of Model/Process.v. *)
Theorem C99_same_run srt dur e s t log : (process_log_t srt dur e s t log).1 = process_log e s log.
Proof. apply log_same. Qed.

(** After a run that ended without an error, its timings tell about exactly the commits that were delivered, each once, with the time it took. *)
Theorem C99_run_counted srt dur skip e o disk log out w : sorts_desc srt -> run_top skip e o disk log = (out, Ret tt, w) ->
  exists ds, length ds = length out /\ (forall i d, ds !! i = Some d -> d = dur i) /\
    tells_about (env_parents e) (zip (map r_commit out) ds) (run_timing srt dur e skip o disk log).
Proof.
  intros Hs H. exists (map dur (seq 0 (length out))). split; [by rewrite map_length, seq_length|]. split; [|by eapply run_told].
  intros i d Hd. change (map dur (seq 0 (length out))) with (dur <$> seq 0 (length out)) in Hd. rewrite list_lookup_fmap in Hd. destruct (seq 0 (length out) !! i) as [k|] eqn:E; [|done].
  apply lookup_seq in E as [-> _]. by injection Hd as <-.
Qed.

Section Call.
Context {T L : Type} (zt : T) (cl : classifiers L) (count : bytes -> bytes -> bytes -> list (Z * line_type) * totals) (meta : gmap bytes (mcommit T)) (fdur : nat -> Z).
Context (orders : nat -> list (bytes * blame) -> list (bytes * blame)).
(** What an object shows after a call, whatever it showed before: after a call without an error, the timings of that call; the files looked at, counted over
    all its calls.  [write_err]: the error of the checkpoint, if any.  A call that returns an error leaves the timings as they were. *)
Theorem C99_after_call srt dur skip e o disk log write_err before cache out oc w xs :
  sorts_desc srt -> used_cache cl cache -> run_top skip e o disk log = (out, oc, w) -> records_for zt cl count meta orders cache 0 out xs ->
  exists cache' f, all_files_t zt cl count meta fdur orders cache (sh_files before) 0 out = Ret (cache', xs, f) /\ used_cache cl cache' /\
    let ret := with_write write_err oc w in let after := shown_after before ret (run_timing srt dur e skip o disk log) f in
    let n := length (filter looked_at (concat xs)) in
    (ret = Ret tt -> tells_about (env_parents e) (zip (map r_commit out) (map dur (seq 0 (length out)))) (sh_git after)) /\
    (ret <> Ret tt -> sh_git after = sh_git before) /\
    ft_count (sh_files after) = ft_count (sh_files before) + n /\
    ft_time (sh_files after) = (ft_time (sh_files before) + total (map fdur (seq (ft_count (sh_files before)) n)))%Z.
Proof.
  intros Hs Hc Hr Hx. destruct (all_count zt cl count meta fdur orders cache 0 out xs (sh_files before) Hc Hx) as (cache' & f & E & Hc' & H1 & H2).
  exists cache', f. split; [exact E|]. split; [exact Hc'|]. cbv zeta. cbn [shown_after sh_git sh_files]. split; [|split; [|split; [exact H1|exact H2]]].
  - intros Hret. assert (Ho : oc = Ret tt) by (unfold with_write in Hret; destruct w; [destruct write_err|]; congruence). rewrite Hret. subst oc. by eapply run_told.
  - intros Hret. destruct (with_write write_err oc w) as [[]|m|m]; [done|reflexivity..].
Qed.
End Call.
Print Assumptions C99_same_run.
Print Assumptions C99_run_counted.
Print Assumptions C99_after_call.

(** ex_hist: five commits, of which one is a merge, taking 5, 1, 9, 2 and 8; five files, all looked at; on an object that has looked at three files. *)
#[local] Instance longer_dec a b : Decision (longer a b). Proof. unfold longer. apply _. Defined.
Definition st_dur (n : nat) : Z := nth n [5; 1; 9; 2; 8]%Z 0%Z.
Definition st_log : list lcommit := (log_run pl_good_text).1.
Example C99_hypotheses_hold :
  sorts_desc (merge_sort longer) /\ used_cache pl_cl (∅ : gmap bytes bytes) /\
  (exists out w xs, run_top no_skip (ex_env ex_hist rev_orders) (POpts [] false false false []) (FS None None) st_log = (out, Ret tt, w) /\
    records_for 0%N pl_cl ex_count pl_meta pl_orders ∅ 0 out xs /\ length (concat xs) = 5) /\
  run_timing (merge_sort longer) st_dur (ex_env ex_hist rev_orders) no_skip (POpts [] false false false []) (FS None None) st_log =
    Tm 4 23 1 2 [Timed c3 9; Timed e5 8; Timed a1 5; Timed d4 2; Timed b2 1]%Z.
Proof.
  split; [|].
  { intros l. split; [apply merge_sort_Permutation|]. assert (Transitive longer) by (intros x y z; unfold longer; lia). assert (Total longer) by (intros x y; unfold longer; lia).
    apply (StronglySorted_merge_sort longer). } split; [apply used_new|]. split.
  - destruct C53_hypotheses_hold as (_ & out & w & xs & E & _ & Hx & Hn). exists out, w, xs. split; [exact E|]. split; [exact Hx|]. apply (f_equal length) in Hn. rewrite map_length in Hn. exact Hn.
  - lk.
Qed.
Print Assumptions C99_hypotheses_hold.
