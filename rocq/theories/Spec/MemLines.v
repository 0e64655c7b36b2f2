(** * What the lines about memory should say *)
From Verif.Model Require Import Base MemLogs.

Definition is_line (e : N * event) : Prop := match e.2 with Line _ _ _ => True | _ => False end.
#[global] Instance is_line_dec e : Decision (is_line e). Proof. destruct e as [? []]; apply _. Defined.
Definition line_of (w : logger) (e : N * event) : Prop := match e.2 with Line w' _ _ => w' = w | _ => False end.
(** The value that was measured last. *)
Definition measured_last (l : list (N * event)) (v : N) : Prop :=
  exists a t w b, l = a ++ (t, Measured w v) :: b /\ Forall (fun e => match e.2 with Measured _ _ => False | _ => True end) b.
(** Every line shows the value that was measured last before it was printed, and the minutes since the start; whoever printed it had measured itself before
    (at [t0]), for this line: neither value is older than that. *)
Definition up_to_date (l : list (N * event)) : Prop :=
  forall a t w m v b, l = a ++ (t, Line w m v) :: b ->
    measured_last a v /\
    exists a0 t0 v0 a1, a = a0 ++ (t0, Measured w v0) :: a1 /\ Forall (fun e => ~ line_of w e) a1 /\ (t0 / minute <= m <= t / minute)%N.
