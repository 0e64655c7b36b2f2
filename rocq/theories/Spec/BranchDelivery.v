(** * What the caller of Branches should receive *)
From Verif.Model Require Import Base GoStrings ParentsGraph Branches Net BranchPool.

Notation bconfig := (config bchan blocal).
(** The records the caller has received, in order. *)
Definition branches_received (c : bconfig) : list branch :=
  match locals c !! 3 with Some (LBU (BULoop g)) | Some (LBU (BUStop g)) => g | _ => [] end.
(** The call has returned. *)
Definition branches_returned (c : bconfig) : option (outcome unit) :=
  match locals c !! 0 with Some (LBM (BStop oc)) => Some oc | _ => None end.
(** All goroutines that were started have returned. *)
Definition branch_ended (l : blocal) : Prop :=
  match l with
  | LBM (BStop _) | LBP BPStop | LBP BPIdle | LBF BFStop | LBF BFIdle | LBU (BUStop _) | LBW BWStop | LBW (BWIdle _) => True
  | _ => False
  end.
Definition branches_ended (c : bconfig) : Prop := Forall branch_ended (locals c).

(** The records of the items: at most one each. *)
Definition records_of (work : item -> outcome (option branch)) (l : list item) : list branch :=
  omap (fun i => match work i with Ret r => r | _ => None end) l.
Definition works (work : item -> outcome (option branch)) (l : list item) : Prop := forall i, i ∈ l -> exists r, work i = Ret r.
