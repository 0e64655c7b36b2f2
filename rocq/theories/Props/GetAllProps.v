(** * C97: calls that return everything at once

    [rtc (step …) call c]: some schedule of the goroutines leads from the beginning of the call to [c]. *)
From Verif.Model Require Import Base GoStrings IncBlame LogParser ParentsGraph Process Msgp Checkpoint CheckpointFS CommitMeta Net Pipeline GetAll.
From Verif.Spec Require Import Text UnifiedDiff GitLog History Processing Delivery Collecting.
From Verif.Proofs Require Import NetProofs PipelineProofs ProcessExamples CheckpointExamples GetAllProofs GetAllRun.
From Verif.Props Require Import PipelineProps.

(** RunSlice (commitmeta): every schedule ends after a bounded number of steps, without a panic or a deadlock, with all goroutines gone, having
    returned the commits that Run sends, in the order sent, and the error of Run; nothing else is ever returned. *)
Theorem C97_run_slice {T} (zero : T) (parse_time : bytes -> option T) text xs oc :
  run_meta zero parse_time text = (xs, oc) -> (forall m, oc <> Panic m) ->
  let act := c_act (fun l x => l ++ [x]) [] xs oc true in
  (exists n, forall m c, nsteps (step act) m collect_call c -> m <= n) /\
  forall c, rtc (step act) collect_call c ->
    ~ crashing act c /\ (forall r, collected c r -> r = (xs, oc)) /\ (final act c -> all_returned c /\ collected c (xs, oc)).
Proof. intros _ Hp. pose proof (collect_every (fun l x => l ++ [x]) [] xs oc true Hp) as H. rewrite fold_append in H. exact H. Qed.
Print Assumptions C97_run_slice.

(** RunMap (commitmeta): the same commits, by hash. *)
Theorem C97_run_map {T} (zero : T) (parse_time : bytes -> option T) text :
  (forall m, (run_meta zero parse_time text).2 <> Panic m) ->
  let act := c_act (fun m x => <[mc_sha x := x]> m) (∅ : gmap bytes (mcommit T)) (run_meta zero parse_time text).1 (run_meta zero parse_time text).2 true in
  (exists n, forall m c, nsteps (step act) m collect_call c -> m <= n) /\
  forall c, rtc (step act) collect_call c ->
    ~ crashing act c /\ (forall r, collected c r -> r = run_map zero parse_time text) /\ (final act c -> all_returned c /\ collected c (run_map zero parse_time text)).
Proof.
  intros Hp. pose proof (collect_every (fun m x => <[mc_sha x := x]> m) (∅ : gmap bytes (mcommit T)) (run_meta zero parse_time text).1 (run_meta zero parse_time text).2 true Hp) as H.
  replace (run_map zero parse_time text) with (fold_left (fun m x => <[mc_sha x := x]> m) (run_meta zero parse_time text).1 (∅ : gmap bytes (mcommit T)), (run_meta zero parse_time text).2); [exact H|].
  unfold run_map. by destruct (run_meta zero parse_time text).
Qed.
Print Assumptions C97_run_map.

(** RunGetAll (parser of the log of patches). *)
Theorem C97_parser_get_all text xs oc :
  log_run text = (xs, oc) -> (forall m, oc <> Panic m) ->
  let act := c_act (fun l x => l ++ [x]) [] xs oc false in
  (exists n, forall m c, nsteps (step act) m collect_call c -> m <= n) /\
  forall c, rtc (step act) collect_call c ->
    ~ crashing act c /\ (forall r, collected c r -> r = (xs, oc)) /\ (final act c -> all_returned c /\ collected c (xs, oc)).
Proof. intros _ Hp. pose proof (collect_every (fun l x => l ++ [x]) [] xs oc false Hp) as H. rewrite fold_append in H. exact H. Qed.
Print Assumptions C97_parser_get_all.

(** If Run panics, nothing is returned, and the program ends with that panic. *)
Theorem C97_panic {V A} (put : A -> V -> A) a0 xs m slice c :
  let act := c_act put a0 xs (Panic m) slice in
  rtc (step act) collect_call c -> (forall r, ~ collected c r) /\ (final act c -> crashing act c).
Proof. intros act Hc. exact (collect_panic put a0 xs (Panic m) slice m eq_refl c Hc). Qed.
Print Assumptions C97_panic.

Section Process.
Context (skip : bytes -> pres unit) (e : env) (o : popts) (disk : fs) (text : bytes).
Notation act log wr := (r_act skip e o disk text log wr).

(** RunGetAll (Process): all results that Run sends, in that order, and its error. *)
Theorem C97_process_get_all write_err out oc w :
  (log_run text).2 = Ret tt -> run_top skip e o disk (log_run text).1 = (out, oc, w) -> (forall m, oc <> Panic m) ->
  (exists n, forall m c, nsteps (step (act None write_err)) m get_all_call c -> m <= n) /\
  forall c, rtc (step (act None write_err)) get_all_call c ->
    ~ crashing (act None write_err) c /\ (forall rs oc', got_all c rs oc' -> rs = out /\ oc' = with_write write_err oc w) /\
    (final (act None write_err) c -> all_routines_returned c /\ got_all c out (with_write write_err oc w)).
Proof. intros H1 H2 H3. by apply get_all_every. Qed.

(** If Run panics, nothing is returned, and the program ends with a panic. *)
Theorem C97_process_panic write_err out m w c :
  run_top skip e o disk (log_run text).1 = (out, Panic m, w) -> rtc (step (act None write_err)) get_all_call c ->
  (forall rs oc, ~ got_all c rs oc) /\ (final (act None write_err) c -> crashing (act None write_err) c).
Proof. intros H1 H2. by eapply get_all_panic. Qed.

(** If the commit graph or the log cannot be read, that error and no results. *)
Theorem C97_process_early_error m write_err :
  (exists n, forall k c, nsteps (step (act (Some m) write_err)) k get_all_call c -> k <= n) /\
  forall c, rtc (step (act (Some m) write_err)) get_all_call c ->
    ~ crashing (act (Some m) write_err) c /\ (forall rs oc, got_all c rs oc -> rs = [] /\ oc = Err m) /\
    (final (act (Some m) write_err) c -> all_routines_returned c /\ got_all c [] (Err m)).
Proof. by apply get_all_early. Qed.
End Process.
Print Assumptions C97_process_get_all.
Print Assumptions C97_process_panic.
Print Assumptions C97_process_early_error.

(** The calls of C53, C54: five commits; an error at the second commit; a panic at the last. *)
Example C97_hypotheses_hold :
  (log_run pl_good_text).2 = Ret tt /\ map r_commit (pl_run ex_hist pl_good_text).1.1 = [a1; b2; c3; d4; e5] /\ (pl_run ex_hist pl_good_text).1.2 = Ret tt /\
  (pl_run pl_bad (render_log (git_log pl_bad [a1; b2]))).1.2 = Err (B "file is missing in commit") /\
  map r_commit (pl_run pl_bad (render_log (git_log pl_bad [a1; b2]))).1.1 = [a1] /\
  (pl_run ex_hist (render_log (git_log ex_hist [a1; c3; e5]))).1.2 = Panic (B "commit not found").
Proof. split; [lk|]. split; [lk|]. split; [lk|]. split; [lk|]. split; lk. Qed.
Print Assumptions C97_hypotheses_hold.
