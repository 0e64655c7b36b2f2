(** * What a call that returns everything at once returns *)
From Verif.Model Require Import Base GoStrings IncBlame LogParser ParentsGraph Process Msgp Checkpoint CheckpointFS Net Pipeline GetAll.

(** The call has returned these things and this error. *)
Definition collected {V A} (c : config chan (@clocal V A)) (r : A * outcome unit) : Prop := CRet r.1 r.2 ∈ locals c.
(** Every goroutine has returned. *)
Definition goroutine_returned {V A} (l : @clocal V A) : Prop := match l with CRet _ _ | CStop => True | _ => False end.
Definition all_returned {V A} (c : config chan (@clocal V A)) : Prop := Forall goroutine_returned (locals c).

(** The same for Process.RunGetAll. *)
Definition got_all (c : config chan rlocal) (rs : list result) (oc : outcome unit) : Prop := RRet rs oc ∈ locals c.
Definition routine_returned (l : rlocal) : Prop := match l with RRet _ _ | RStop _ _ | RL (LP PStop) | RL (LP PIdle) => True | _ => False end.
Definition all_routines_returned (c : config chan rlocal) : Prop := Forall routine_returned (locals c).
