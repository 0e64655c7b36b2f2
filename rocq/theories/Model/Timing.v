(** * Timing of history3/process: the slowest commits (/repo/ripsrc/history3/process/process.go:278-311)

    Durations are integers (time.Duration, nanoseconds).  [sort.Slice] is not stable, so which of several commits with equal
    durations comes first is not determined: the sort is a parameter, described by [sorts_desc]. *)
From Verif.Model Require Import Base.

(** process.go:287-290 *)
Record timed := Timed { t_commit : bytes; t_dur : Z }.
#[global] Instance timed_eq_dec : EqDecision timed. Proof. solve_decision. Defined.

(** What sort.Slice promises with the comparison of process.go:296-300. *)
Definition sorts_desc (srt : list timed -> list timed) : Prop :=
  forall l, srt l ≡ₚ l /\ StronglySorted (fun a b => (t_dur b <= t_dur a)%Z) (srt l).

(** process.go:292 *)
Definition max_slowest : nat := 10.
(** process.go:294-304 (UpdateSlowestCommitsWith) *)
Definition update_slowest (srt : list timed -> list timed) (l : list timed) (c : timed) : list timed :=
  let l1 := srt (l ++ [c]) in
  if decide (max_slowest < length l1) then take max_slowest l1 else l1.
(** process.go:306-311 (SlowestCommitsDur) *)
Definition slowest_dur (l : list timed) : Z := foldl (fun s c => s + t_dur c)%Z 0%Z l.
