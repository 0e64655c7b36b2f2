(** * C102: the lines about memory *)
From Verif.Model Require Import Base MemLogs.
From Verif.Spec Require Import MemLines.
From Verif.Proofs Require Import MemLogsProofs.
From Coq Require Import Lia.

(** In every execution every line is up to date, and there is at most one line per second after the first. *)
Theorem C102_up_to_date_partial meas l s : run meas (started meas) l = Some s -> up_to_date (m_events s).
Proof. intros H. apply (inv_run meas l _ _ (inv_started meas) H). Qed.
Theorem C102_one_per_second_partial meas l s : run meas (started meas) l = Some s -> (N.of_nat (length (filter is_line (m_events s))) <= 1 + m_now s / second)%N.
Proof.
  intros H. destruct (inv_run meas l _ _ (inv_started meas) H) as (_ & _ & _ & H1 & H2 & H3 & _). rewrite lines_both.
  assert (lines_of Caller (m_events s) <= 1)%N by (destruct (decide (m_caller s = Over)); lia).
  assert (lines_of Loop (m_events s) <= m_ticks s)%N by lia.
  assert (m_ticks s <= m_now s / second)%N; [|lia]. apply N.div_le_lower_bound; [discriminate|lia].
Qed.

(** The full property says, too, that no line comes after the end.  But whatever has happened (also if the end was the last event), the goroutine can go on
    and print any number of lines. *)
Theorem C102_goes_on meas l s : run meas (started meas) l = Some s ->
  forall n, exists more s' b, run meas (started meas) (l ++ more) = Some s' /\ m_events s' = m_events s ++ b /\ n <= length (filter is_line b).
Proof.
  intros H n. destruct (many_more meas n s (inv_run meas l _ _ (inv_started meas) H)) as (more & s' & b & R & E & L). exists more, s', b. split; [|split; [exact E|exact L]].
  by rewrite run_app, H.
Qed.
Theorem C102_end_refuted : ~ (forall meas l s, run meas (started meas) l = Some s -> forall a t b, m_events s = a ++ (t, Ended) :: b -> filter is_line b = []).
Proof.
  intros H. set (meas := fun _ : nat => 7%N).
  assert (R : exists s, run meas (started meas) [Measure Caller; Clock Caller; Print Caller; End] = Some s /\ exists a, m_events s = a ++ [(0%N, Ended)]).
  { eexists. split; [vm_compute; reflexivity|]. eexists [_; _]. reflexivity. }
  destruct R as (s & R & a & E). destruct (C102_goes_on meas _ s R 1) as (more & s' & b & R' & E' & L).
  rewrite E, <-app_assoc in E'. specialize (H meas _ s' R' a 0%N b E'). rewrite H in L. cbn in L. lia.
Qed.
Print Assumptions C102_up_to_date_partial.
Print Assumptions C102_one_per_second_partial.
Print Assumptions C102_goes_on.
Print Assumptions C102_end_refuted.

(** The caller measures 5 MB and is slow; after a second the goroutine measures 9 MB and prints them; so does the caller, in the second minute; the end; a last line. *)
Example C102_hypotheses_hold : exists s, let meas := fun n => nth n [3; 5; 9; 8]%N 0%N in
  run meas (started meas) [Measure Caller; Pass second; Tick; Measure Loop; Clock Loop; Print Loop; Pass minute; Clock Caller; Print Caller; End; Tick; Measure Loop; Clock Loop; Print Loop] = Some s /\
  map snd (m_events s) = [Measured Caller 5; Measured Loop 9; Line Loop 0 9; Line Caller 1 9; Ended; Measured Loop 8; Line Loop 1 8]%N.
Proof. eexists. split; [vm_compute; reflexivity|vm_compute; reflexivity]. Qed.
Print Assumptions C102_hypotheses_hold.
