(** * What the statistics of a run should say *)
From Verif.Model Require Import Base IncBlame Timing FileInfo CodeInfo Stats.
From Verif.Spec Require Import Processing.

Definition total (l : list Z) : Z := foldr Z.add 0%Z l.
(** [t] tells about the commits [done], each with the time it took: how many of them are merges and how many are not, how long each kind took together, and
    the ten slowest. *)
Definition tells_about (parents : bytes -> list bytes) (done : list (bytes * Z)) (t : timing) : Prop :=
  let merges := filter (fun x => 1 < length (parents x.1)) done in
  let others := filter (fun x => ~ 1 < length (parents x.1)) done in
  tm_merges t = length merges /\ tm_merges_time t = total (map snd merges) /\
  tm_regular t = length others /\ tm_regular_time t = total (map snd others) /\
  slowest_of (map (fun x => Timed x.1 x.2) done) (tm_slowest t).
(** A record of a file that was looked at: it was not skipped, or only because it says that it is generated. *)
Definition looked_at {T L} (r : bresult T L) : Prop := br_skipped r = [] \/ br_skipped r = B "file was a generated file".
#[global] Instance looked_at_dec {T L} (r : bresult T L) : Decision (looked_at r). Proof. unfold looked_at. apply _. Defined.
