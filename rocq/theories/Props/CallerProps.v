(** * Properties C71 and C72: CodeByCommit, and callers that do not read everything

    [by_commit_call] is a call of CodeByCommit with a caller that, for the n-th commit [c], reads [want n c] of its records (all of them
    and the end of the channel, if [None]), and stops after [quit] commits; [quitting_call] is a call of Code with a caller that stops
    after [limit] records.  [rtc step call c]: some schedule leads to [c]. *)
From Verif.Model Require Import Base GoStrings IncBlame LogParser ParentsGraph Process Msgp Checkpoint CheckpointFS CommitMeta FileInfo CodeInfo Net Pipeline Callers.
From Verif.Spec Require Import Text UnifiedDiff GitLog History Processing Records Delivery Callers.
From Verif.Proofs Require Import NetProofs PipelineProofs Sink CallersProofs ReadersProofs ProcessExamples CheckpointExamples.
From Verif.Props Require Import RecordProps PipelineProps.

Section Props.
Context {T L : Type} (zero_time : T) (cl : classifiers L).
Context (count : bytes -> bytes -> bytes -> list (Z * line_type) * totals) (meta : gmap bytes (mcommit T)).
Context (orders : nat -> list (bytes * blame) -> list (bytes * blame)) (cache0 : gmap bytes bytes).
Context (skip : bytes -> pres unit) (e : env) (o : popts) (disk : fs) (text : bytes) (write_err : option bytes).
Notation by_commit want quit := (by_commit_act zero_time cl count meta orders cache0 skip e o disk text None None write_err want quit 0).
Notation readers := (readers_act zero_time cl count meta orders cache0 skip e o disk text None None write_err).
Notation readers_call k := (readers_call (T := T) (L := L) None k).
Notation code limit := (code_act zero_time cl count meta orders cache0 skip e o disk text None None write_err (fun _ _ => None) None limit).
Notation commits := (commits_for zero_time cl count meta orders cache0 0).
Notation records := (records_for zero_time cl count meta orders cache0 0).
Notation by_commit_call quit := (by_commit_call (T := T) (L := L) None quit).
Notation quitting_call limit := (quitting_call (T := T) (L := L) limit).

(** C71: under every schedule a caller that reads everything receives the commits in order, each with its own records, each once; nothing
    panics or deadlocks; at the end the channel is closed, all goroutines have returned and the call has returned its result. *)
Theorem C71_by_commit want quit out oc w ys :
  (log_run text).2 = Ret tt -> run_top skip e o disk (log_run text).1 = (out, oc, w) -> (forall m, oc <> Panic m) -> commits out ys ->
  reads_all want quit ys ->
  (exists n, forall m c, nsteps (step (by_commit want quit)) m (by_commit_call quit) c -> m <= n) /\
  forall c, rtc (step (by_commit want quit)) (by_commit_call quit) c ->
    ~ crashing (by_commit want quit) c /\ part_of (commits_received c) ys /\
    (final (by_commit want quit) c ->
       all_done c /\ commits_received c = ys /\ c_res2 ∈ closed c /\ call_returned c = Some (with_write write_err oc w, w)).
Proof. intros H1 H2 H3 H4 H5. by eapply bc_every_schedule. Qed.

(** C71 for a caller that starts a goroutine for each commit (it can start [k]): under every schedule the caller gets the commits in order, and the [n]-th
    goroutine exactly the records of the [n]-th commit; nothing panics or deadlocks. *)
Theorem C71_readers k out oc w ys :
  (log_run text).2 = Ret tt -> run_top skip e o disk (log_run text).1 = (out, oc, w) -> (forall m, oc <> Panic m) -> commits out ys -> length ys <= k ->
  (exists n, forall m c, nsteps (step readers) m (readers_call k) c -> m <= n) /\ (exists c, rtc (step readers) (readers_call k) c /\ final readers c) /\
  forall c, rtc (step readers) (readers_call k) c ->
    ~ crashing readers c /\ commits_taken c `prefix_of` map fst ys /\
    (forall n m rs, reader_has c n = Some (m, rs) -> exists rs', ys !! n = Some (m, rs') /\ rs `prefix_of` rs') /\
    (final readers c -> readers_done c /\ commits_taken c = map fst ys /\ (forall n y, ys !! n = Some y -> reader_has c n = Some y /\ reader_done c n) /\
       c_res2 ∈ closed c /\ call_returned c = Some (with_write write_err oc w, w)).
Proof. intros H1 H2 H3 H4 H5. by eapply rd_every_schedule. Qed.

(** C71: the records of CodeByCommit are those of Code. *)
Theorem C71_same_records out xs : records out xs <-> exists ys, commits out ys /\ map snd ys = xs.
Proof.
  split; [apply commits_of_records|]. intros (ys & H & <-).
  induction H as [cache n|cache n r rs c cache' x ys Hc Hx _ IH]; [constructor|econstructor; [by eexists|exact Hx|exact IH]].
Qed.

(** C72 is false for CodeByCommit: a caller that leaves a record of some commit unread and asks for the next commit, or that stops before the
    last commit, waits for ever: no schedule returns from the call or closes the channel. *)
Theorem C72_by_commit_refuted want quit out oc w ys :
  run_top skip e o disk (log_run text).1 = (out, oc, w) -> commits out ys -> ~ reads_all want quit ys ->
  forall c, rtc (step (by_commit want quit)) (by_commit_call quit) c -> call_returned c = None /\ c_res2 ∉ closed c.
Proof.
  intros H1 H2 H3 c Hc. destruct (first_unread want quit ys H3) as (pre & c0 & x & post & -> & H4 & H5).
  destruct (bc_stuck zero_time cl count meta orders cache0 skip e o disk text None None write_err want quit 0 out oc w pre c0 x post eq_refl eq_refl H1 H2 H4 H5) as (wk & s & f & Hst & _ & Hi & Hf).
  destruct (stuck_everywhere zero_time cl count meta orders cache0 skip e o disk text None None write_err want quit 0 wk s f Hst Hi Hf c Hc) as (G1 & G2 & _). done.
Qed.
(** What such a caller gets: with [pre] read completely and [k] of the records [rs] of the commit after it, exactly that. *)
Theorem C72_by_commit_gets want quit out oc w pre c0 rs post k :
  run_top skip e o disk (log_run text).1 = (out, oc, w) -> commits out (pre ++ (c0, rs) :: post) -> reads_all want quit pre ->
  quit <> Some (length pre) -> want (length pre) c0 = Some k -> k < length rs ->
  (forall c, rtc (step (by_commit want quit)) (by_commit_call quit) c -> part_of (commits_received c) (pre ++ [(c0, take k rs)])) /\
  exists c, rtc (step (by_commit want quit)) (by_commit_call quit) c /\ commits_received c = pre ++ [(c0, take k rs)].
Proof.
  intros H1 H2 H3 H4 H5 H6.
  destruct (bc_stuck zero_time cl count meta orders cache0 skip e o disk text None None write_err want quit 0 out oc w pre c0 rs post eq_refl eq_refl H1 H2 H3) as (wk & s & f & Hst & Es & Hi & Hf).
  { right. split; [done|]. by exists k. }
  unfold left_with in Es. rewrite decide_False in Es by done. rewrite H5 in Es. split.
  - intros c Hc. rewrite <- Es. by destruct (stuck_everywhere zero_time cl count meta orders cache0 skip e o disk text None None write_err want quit 0 wk s f Hst Hi Hf c Hc) as (_ & _ & G).
  - exists f. split; [done|]. rewrite <- Es. apply seen_received. by destruct Hi.
Qed.

(** C72 is false for Code: a caller that stops before the last record never sees the call return. *)
Theorem C72_code_refuted limit out oc w xs :
  run_top skip e o disk (log_run text).1 = (out, oc, w) -> records out xs -> limit < length (concat xs) ->
  (forall c, rtc (step (code limit)) (quitting_call limit) c -> call_returned c = None /\ c_res ∉ closed c /\ taken c `prefix_of` take limit (concat xs)) /\
  exists c, rtc (step (code limit)) (quitting_call limit) c /\ taken c = take limit (concat xs).
Proof.
  intros H1 H2 H3. destruct (commits_of_records zero_time cl count meta orders cache0 0 out xs H2) as (ys & Hys & <-). by eapply cq_stuck_everywhere.
Qed.
(** C72, the rest: it returns if all records are received, even if the caller then does not wait for the end of the channel. *)
Theorem C72_code_partial limit out oc w xs :
  (log_run text).2 = Ret tt -> run_top skip e o disk (log_run text).1 = (out, oc, w) -> (forall m, oc <> Panic m) -> records out xs -> length (concat xs) <= limit ->
  (exists n, forall m c, nsteps (step (code limit)) m (quitting_call limit) c -> m <= n) /\
  forall c, rtc (step (code limit)) (quitting_call limit) c -> final (code limit) c ->
    taken c = concat xs /\ c_res ∈ closed c /\ call_returned c = Some (with_write write_err oc w, w).
Proof.
  intros H1 H2 H3 H4 H5. destruct (commits_of_records zero_time cl count meta orders cache0 0 out xs H4) as (ys & Hys & <-). by eapply cq_every_schedule.
Qed.
End Props.
Print Assumptions C71_by_commit.
Print Assumptions C71_readers.
Print Assumptions C71_same_records.
Print Assumptions C72_by_commit_refuted.
Print Assumptions C72_by_commit_gets.
Print Assumptions C72_code_refuted.
Print Assumptions C72_code_partial.

(** ** The call of PipelineProps: five commits with one record each *)
Lemma pl_commits : exists out w ys, pl_run ex_hist pl_good_text = (out, Ret tt, w) /\ commits_for 0%N pl_cl ex_count pl_meta pl_orders ∅ 0 out ys /\
  map (fun y => length y.2) ys = [1; 1; 1; 1; 1] /\ length (concat (map snd ys)) = 5.
Proof.
  destruct C53_hypotheses_hold as (_ & out & w & xs & H1 & _ & H2 & H3). destruct (commits_of_records _ _ _ _ _ _ _ _ _ H2) as (ys & H4 & <-).
  exists out, w, ys. split; [exact H1|]. split; [exact H4|].
  assert (Hl : length (concat (map snd ys)) = 5) by (apply (f_equal length) in H3; rewrite map_length in H3; exact H3). split; [|exact Hl].
  assert (Eo : map length (match pl_records (pl_run ex_hist pl_good_text).1.1 with Some xs => xs | None => [] end) = [1; 1; 1; 1; 1]) by lk.
  rewrite H1 in Eo. cbn [fst] in Eo. assert (Hr : pl_records out = Some (map snd ys)).
  { clear -H4. unfold pl_records. revert H4. generalize (∅ : gmap bytes bytes), 0. intros cache n H. induction H as [|cache n r rs c cache' x ys Hc Hx Hr IH]; [reflexivity|].
    cbn [records_run]. rewrite Hc, Hx, IH. reflexivity. }
  rewrite Hr in Eo. rewrite <- Eo, map_map. reflexivity.
Qed.
(** A caller that reads everything; one that reads one record per commit and does not wait for the end; both read all. *)
Example C71_hypotheses_hold : exists out w ys, (log_run pl_good_text).2 = Ret tt /\ pl_run ex_hist pl_good_text = (out, Ret tt, w) /\
  commits_for 0%N pl_cl ex_count pl_meta pl_orders ∅ 0 out ys /\ length ys = 5 /\
  reads_all (fun _ _ => None) None ys /\ reads_all (fun _ _ => Some 1) (Some 5) ys.
Proof.
  destruct pl_commits as (out & w & ys & H1 & H2 & H3 & _). exists out, w, ys. split; [exact (proj1 C53_hypotheses_hold)|]. split; [exact H1|]. split; [exact H2|].
  assert (Hl : length ys = 5) by (apply (f_equal length) in H3; rewrite map_length in H3; exact H3). split; [exact Hl|].
  split; intros pre c rs post ->; (split; [intros [=]|]).
  - exact I.
  - rewrite app_length in Hl. cbn in Hl. lia.
  - assert (Hin : length rs ∈ map (fun y : mcommit N * list (bresult N N) => length y.2) (pre ++ (c, rs) :: post)).
    { rewrite map_app. apply elem_of_app. right. apply elem_of_list_here. }
    rewrite H3 in Hin. rewrite !elem_of_cons, elem_of_nil in Hin. lia.
Qed.
(** A caller that only wants the commits; one that stops after the second; one of Code that stops after two records. *)
Example C72_hypotheses_hold : exists out w ys, pl_run ex_hist pl_good_text = (out, Ret tt, w) /\
  commits_for 0%N pl_cl ex_count pl_meta pl_orders ∅ 0 out ys /\
  ~ reads_all (fun _ _ => Some 0) None ys /\ ~ reads_all (fun _ _ => None) (Some 2) ys /\ 2 < length (concat (map snd ys)).
Proof.
  destruct pl_commits as (out & w & ys & H1 & H2 & H3 & H4). exists out, w, ys. split; [exact H1|]. split; [exact H2|].
  destruct ys as [|[c1 r1] [|[c2 r2] [|[c3 r3] ys]]]; try discriminate H3. split; [|split; [|rewrite H4; lia]].
  - intros H. destruct (H [] c1 r1 _ eq_refl) as [_ Hk]. cbn in H3, Hk. injection H3 as H3 _. lia.
  - intros H. destruct (H [(c1, r1); (c2, r2)] c3 r3 ys eq_refl) as [Hk _]. by apply Hk.
Qed.
