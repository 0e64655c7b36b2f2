(** * CodeByCommit, and callers that do not read everything

    Models /repo/ripsrc/code.go:93-192 (CodeByCommit as an entry point of its own) with a caller that receives commits and reads as much
    of the channel of each commit as it wants, and /repo/ripsrc/code.go:63-86 (Code) with a caller that stops after some number of
    records.  The goroutines of the library are those of Model/Pipeline.v.  These callers are one goroutine each; a third caller, of
    CodeByCommit, starts a goroutine for each commit, which reads the channel of that commit.  Simplifications: those of Model/Pipeline.v. *)
From Verif.Model Require Import Base GoStrings IncBlame LogParser ParentsGraph Process Msgp Checkpoint CheckpointFS CommitMeta FileInfo CodeInfo Net Pipeline.

Section Callers.
Context {T L : Type} (zero_time : T) (cl : classifiers L).
Context (count : bytes -> bytes -> bytes -> list (Z * line_type) * totals) (meta : gmap bytes (mcommit T)).
Context (orders : nat -> list (bytes * blame) -> list (bytes * blame)) (cache0 : gmap bytes bytes).
Context (skip : bytes -> pres unit) (e : env) (o : popts) (disk : fs) (text : bytes).
Context (prep_err log_err write_err : option bytes).
Notation record := (bresult T L).
Notation local := (@local T L).
Notation value := (@value T L).
Notation act := (act zero_time cl count meta orders cache0 skip e o disk text prep_err log_err write_err).

(** ** The callers *)

(** What the caller has: commits, each with the records it read. *)
Notation gotten := (list (mcommit T * list record)).
(** A caller of CodeByCommit.  [want n c]: how many records it reads for the [n]-th commit [c] before it asks for the next commit;
    [None]: until the channel of the commit is closed.  [quit]: the number of commits after which it stops; [None]: it does not. *)
Context (want : nat -> mcommit T -> option nat) (quit : option nat).
Inductive cstate :=
| CLoop (got : gotten)                                                            (* waits for a commit *)
| CRecs (n : nat) (k : option nat) (c : mcommit T) (rs : list record) (got : gotten)   (* waits for a record of the commit [c] *)
| CStop (got : gotten)                                                            (* the channel is closed *)
| CGone (got : gotten).                                                           (* has stopped *)
Definition c_again (got : gotten) : cstate := if decide (quit = Some (length got)) then CGone got else CLoop got.
Definition c_more (n : nat) (k : option nat) (c : mcommit T) (rs : list record) (got : gotten) : cstate :=
  match k with Some 0 => c_again (got ++ [(c, rs)]) | _ => CRecs n k c rs got end.

(** A caller of Code that stops after [limit] records. *)
Context (limit : nat).
Inductive qstate := QLoop (got : list record) | QStop (got : list record) | QGone (got : list record).
Definition q_again (got : list record) : qstate := if decide (length got = limit) then QGone got else QLoop got.

(** A caller of CodeByCommit that starts a goroutine for each commit it receives.  As elsewhere a goroutine that will be started is one that waits
    for a message; the goroutine [n] is the one for the [n]-th channel of records. *)
Inductive rstate :=
| RLoop (got : list (mcommit T))                          (* waits for a commit *)
| RGo (c : mcommit T) (n : nat) (got : list (mcommit T))  (* go func() { for r := range c.Blames ... }() *)
| RStop (got : list (mcommit T))                          (* the channel is closed *)
| RIdle (n : nat)                                         (* not yet started *)
| RRecs (n : nat) (c : mcommit T) (rs : list record)      (* waits for a record of the commit [c] *)
| RDone (n : nat) (c : mcommit T) (rs : list record).
Definition c_start_r (n : nat) : chan := (11, n).

Inductive clocal := BL (l : local) | BC (c : cstate) | BQ (q : qstate) | BR (r : rstate).
Notation action := (action chan value clocal).

Definition c_act (c : cstate) : action :=
  match c with
  | CLoop got => Recv c_res2 (fun v => match v with
      | Some (VCode c n) => BC (c_more n (want (length got) c) c [] got) | Some _ => BL LBad | None => BC (CStop got) end)
  | CRecs n k c rs got => Recv (c_blames n) (fun v => match v with
      | Some (VRecord r) => BC (c_more n (pred <$> k) c (rs ++ [r]) got) | Some _ => BL LBad | None => BC (c_again (got ++ [(c, rs)])) end)
  | CStop _ | CGone _ => Stop
  end.
Definition q_act (q : qstate) : action :=
  match q with
  | QLoop got => Recv c_res (fun v => match v with Some (VRecord r) => BQ (q_again (got ++ [r])) | Some _ => BL LBad | None => BQ (QStop got) end)
  | QStop _ | QGone _ => Stop
  end.
Definition r_act (r : rstate) : action :=
  match r with
  | RLoop got => Recv c_res2 (fun v => match v with Some (VCode c n) => BR (RGo c n got) | Some _ => BL LBad | None => BR (RStop got) end)
  | RGo c n got => Send (c_start_r n) (VCode c n) (BR (RLoop (got ++ [c])))
  | RIdle n => Recv (c_start_r n) (fun v => match v with Some (VCode c _) => BR (RRecs n c []) | _ => BL LBad end)
  | RRecs n c rs => Recv (c_blames n) (fun v => match v with Some (VRecord r) => BR (RRecs n c (rs ++ [r])) | Some _ => BL LBad | None => BR (RDone n c rs) end)
  | RStop _ | RDone _ _ _ => Stop
  end.

(** ** The goroutines of the library *)
Definition lift_act (a : Net.action chan value local) : action :=
  match a with
  | Send c v k => Send c v (BL k)
  | Recv c k => Recv c (fun v => BL (k v))
  | Close c k => Close c (BL k)
  | Stop => Stop
  | Crash => Crash
  end.
(** In a call of CodeByCommit the close of res (code.go:94) is the last thing; there is no forwarder. *)
Definition by_commit_act (l : clocal) : action :=
  match l with
  | BL (LM (MCloseRes2 oc w)) => Close c_res2 (BL (LM (MStop oc w)))
  | BL l => lift_act (act l)
  | BC c => c_act c
  | BQ q => q_act q
  | BR _ => Stop
  end.
Definition code_act (l : clocal) : action :=
  match l with BL l => lift_act (act l) | BC c => c_act c | BQ q => q_act q | BR _ => Stop end.
Definition readers_act (l : clocal) : action :=
  match l with
  | BL (LM (MCloseRes2 oc w)) => Close c_res2 (BL (LM (MStop oc w)))
  | BL l => lift_act (act l)
  | BC _ | BQ _ => Stop
  | BR r => r_act r
  end.

(** code.go:93-141 *)
Definition by_commit_call : config chan clocal :=
  Config [BL (LM (match prep_err with Some x => MCloseRes2 (Err x) None | None => MStartW end)); BL (LP PIdle); BL (LW WIdle); BC (c_again [])] ∅.
(** code.go:63-86 *)
Definition quitting_call : config chan clocal :=
  Config [BL (LM MStartF); BL (LP PIdle); BL (LW WIdle); BL (LF FIdle); BQ (q_again [])] ∅.
(** code.go:93-141, with a caller that has [k] goroutines it can start. *)
Definition readers_call (k : nat) : config chan clocal :=
  Config (BL (LM (match prep_err with Some x => MCloseRes2 (Err x) None | None => MStartW end)) :: BL (LP PIdle) :: BL (LW WIdle) :: BR (RLoop []) :: map (fun n => BR (RIdle n)) (seq 0 k)) ∅.
End Callers.
