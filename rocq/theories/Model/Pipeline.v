(** * The goroutines of a Code call

    Models /repo/ripsrc/code.go:63-192 (Code, CodeByCommit) and /repo/ripsrc/history3/process/process.go:131-219 (Process.Run) with the
    channels between their goroutines:

    - the main goroutine runs Code, CodeByCommit and Process.Run;
    - the parser goroutine (process.go:166-175) sends the commits of the patch log;
    - the worker goroutine (code.go:141-165) turns results into records;
    - the forwarder goroutine (code.go:70-77) passes records on;
    - the caller receives them until the channel is closed.

    What the goroutines compute is taken from the other model files.  Simplifications: a panic of the main or of the worker goroutine is
    the end of that goroutine (the deferred calls that run while it is panicking are left out; the whole program ends); a panic of the
    parser goroutine runs the deferred calls first, as in the code.  The goroutine that runs git (gitexec.go:134-147) is left out: the
    text of the log is given.  The computation of the log's text and of the commit graph may fail ([prep_err], [log_err]), as may
    the writing of the checkpoint ([write_err]). *)
From Verif.Model Require Import Base GoStrings IncBlame LogParser ParentsGraph Process Msgp Checkpoint CheckpointFS CommitMeta FileInfo CodeInfo Net.

(** ** Channels *)
Definition chan : Type := nat * nat.
Definition c_commits : chan := (0, 0).      (* process.go:161, commits *)
Definition c_done1 : chan := (1, 0).        (* process.go:164, done *)
Definition c_gitres : chan := (2, 0).       (* code.go:139, gitRes *)
Definition c_done2 : chan := (3, 0).        (* code.go:140, done *)
Definition c_res2 : chan := (4, 0).         (* code.go:67, res2; the parameter res of CodeByCommit *)
Definition c_blames (n : nat) : chan := (5, n).   (* code.go:146, rc.Blames of the n-th commit *)
Definition c_done3 : chan := (6, 0).        (* code.go:68, done *)
Definition c_res : chan := (7, 0).          (* code.go:64, res *)
(** The [go] statements of process.go:166, code.go:141 and code.go:70. *)
Definition c_start_p : chan := (8, 0).
Definition c_start_w : chan := (9, 0).
Definition c_start_f : chan := (10, 0).

Section Pipeline.
Context {T L : Type} (zero_time : T) (cl : classifiers L).
Context (count : bytes -> bytes -> bytes -> list (Z * line_type) * totals) (meta : gmap bytes (mcommit T)).
Context (orders : nat -> list (bytes * blame) -> list (bytes * blame)) (cache0 : gmap bytes bytes).
Context (skip : bytes -> pres unit) (e : env) (o : popts) (disk : fs) (text : bytes).
Context (prep_err log_err write_err : option bytes).

(** ** Values sent on the channels *)
Inductive value :=
| VUnit
| VCommit (c : lcommit)
| VResult (r : result)
| VCode (c : mcommit T) (n : nat)     (* CommitCode (code.go:88-91): the commit and its channel of records *)
| VRecord (r : bresult T L).

(** ** The main goroutine *)

(** What Run does after sending results. *)
Inductive mnext :=
| NLoop (s : pst)
| NDrain (err : bytes)
| NWrite (s : pst)
| NCrash (m : bytes).

(** The last two arguments of the later states: the value Run returns, and what was passed to Write. *)
Inductive mstate :=
| MStartF
| MStartW
| MStartP
| MLoop (x : option pst)                          (* process.go:184: i = 0, or the state *)
| MSend (r : result) (rs : list result) (n : mnext)
| MDrain (err : bytes)                            (* process.go:177-181, drainAndExit *)
| MWait (oc : outcome unit) (w : option (repo * bytes))     (* <-done in Run *)
| MCloseGit (oc : outcome unit) (w : option (repo * bytes)) (* process.go:132-134 *)
| MWaitW (oc : outcome unit) (w : option (repo * bytes))    (* code.go:180, <-done *)
| MCloseRes2 (oc : outcome unit) (w : option (repo * bytes))(* code.go:95 *)
| MWaitF (oc : outcome unit) (w : option (repo * bytes))    (* code.go:80, <-done *)
| MCloseRes (oc : outcome unit) (w : option (repo * bytes)) (* code.go:65 *)
| MStop (oc : outcome unit) (w : option (repo * bytes))
| MCrash (m : bytes).

Definition after_sends (n : mnext) : mstate :=
  match n with
  | NLoop s => MLoop (Some s)
  | NDrain m => MDrain m
  | NWrite s =>                                   (* process.go:208-219, writer.go:31-33 *)
      if decide (s_last s = []) then MCrash (B "no last commit provided")
      else MWait (match write_err with Some m => Err m | None => Ret tt end) (Some (s_repo s, s_last s))
  | NCrash m => MCrash m
  end.
Definition send_all (rs : list result) (n : mnext) : mstate :=
  match rs with [] => after_sends n | r :: rs => MSend r rs n end.
(** The results sent between two states. *)
Definition new_results (s s' : pst) : list result := drop (length (s_out s)) (s_out s').

(** process.go:184-199 *)
Definition on_commit (x : option pst) (c : lcommit) : mstate :=
  match (match x with Some s => Ret s | None => omap_o pst_init (init_checkpoints skip o disk) end) with
  | Ret s => let r := process_commit e s c in
             send_all (new_results s r.1) (match r.2 with Ret _ => NLoop r.1 | Err m => NDrain m | Panic m => NCrash m end)
  | Err m => MDrain m
  | Panic m => MCrash m
  end.
(** process.go:201-219 *)
Definition on_end (x : option pst) : mstate :=
  match x with
  | None => MWait (Ret tt) None
  | Some s =>
      if decide (s_mparts s = ∅) then after_sends (NWrite s)
      else let r := got_merge_parts e s in
           send_all (new_results s r.1) (match r.2 with Ret _ => NWrite r.1 | Err m | Panic m => NCrash m end)
  end.

(** ** The other goroutines *)

(** The parser goroutine: the commits left to send. *)
Inductive pstate :=
| PIdle | PSend (cs : list lcommit) (oc : outcome unit) | PDone (oc : outcome unit) | PStop | PCrash (m : bytes).
(** The worker: the cache of fileInfo, and the number of commits seen. *)
Inductive wstate :=
| WIdle | WLoop (cache : gmap bytes bytes) (n : nat) | WRes (c : mcommit T) (n : nat) (rs : list (bresult T L)) (cache : gmap bytes bytes)
| WBlames (n : nat) (rs : list (bresult T L)) (cache : gmap bytes bytes) | WDone | WStop | WCrash (m : bytes).
Inductive fstate := FIdle | FLoop | FBlames (n : nat) | FSend (n : nat) (r : bresult T L) | FDone | FStop.
(** The caller: what it received. *)
Inductive ustate := ULoop (got : list (bresult T L)) | UStop (got : list (bresult T L)).

(** code.go:142-158 *)
Definition on_result (cache : gmap bytes bytes) (n : nat) (r : result) : wstate :=
  match meta !! r_commit r with
  | None => WCrash (B "commit not found in commit meta: " ++ r_commit r)
  | Some c =>
      match code_info_files zero_time cl count meta (orders n) cache r with
      | Ret (cache', rs) => WRes c n rs cache'
      | Err m | Panic m => WCrash m
      end
  end.

Inductive local := LM (m : mstate) | LP (p : pstate) | LW (w : wstate) | LF (f : fstate) | LU (u : ustate) | LBad.
Notation action := (action chan value local).

Definition start_act (c : chan) (l : local) : action := Recv c (fun v => match v with Some VUnit => l | _ => LBad end).

Definition m_act (m : mstate) : action :=
  match m with
  | MStartF => Send c_start_f VUnit (LM (match prep_err with Some x => MCloseRes2 (Err x) None | None => MStartW end))   (* code.go:70-134 *)
  | MStartW => Send c_start_w VUnit (LM (match log_err with Some x => MCloseGit (Err x) None | None => MStartP end))     (* code.go:141-179 *)
  | MStartP => Send c_start_p VUnit (LM (MLoop None))
  | MLoop x => Recv c_commits (fun v => match v with Some (VCommit c) => LM (on_commit x c) | Some _ => LBad | None => LM (on_end x) end)
  | MSend r rs n => Send c_gitres (VResult r) (LM (send_all rs n))
  | MDrain m => Recv c_commits (fun v => match v with Some _ => LM (MDrain m) | None => LM (MWait (Err m) None) end)
  | MWait oc w => Recv c_done1 (fun v => match v with Some _ => LM (MCloseGit oc w) | None => LBad end)
  | MCloseGit oc w => Close c_gitres (LM (MWaitW oc w))
  | MWaitW oc w => Recv c_done2 (fun v => match v with Some _ => LM (MCloseRes2 oc w) | None => LBad end)
  | MCloseRes2 oc w => Close c_res2 (LM (MWaitF oc w))
  | MWaitF oc w => Recv c_done3 (fun v => match v with Some _ => LM (MCloseRes oc w) | None => LBad end)
  | MCloseRes oc w => Close c_res (LM (MStop oc w))
  | MStop _ _ => Stop
  | MCrash _ => Crash
  end.
(** process.go:166-175 and parser.go:68-88: the channel is closed however Run of the parser ends; an error or a panic goes on after [done <- true]. *)
Definition p_act (p : pstate) : action :=
  match p with
  | PIdle => start_act c_start_p (LP (PSend (log_run text).1 (log_run text).2))
  | PSend [] oc => Close c_commits (LP (PDone oc))
  | PSend (c :: cs) oc => Send c_commits (VCommit c) (LP (PSend cs oc))
  | PDone oc => Send c_done1 VUnit (LP (match oc with Ret _ => PStop | Err m | Panic m => PCrash m end))
  | PStop => Stop
  | PCrash _ => Crash
  end.
Definition w_act (w : wstate) : action :=
  match w with
  | WIdle => start_act c_start_w (LW (WLoop cache0 0))
  | WLoop cache n => Recv c_gitres (fun v => match v with Some (VResult r) => LW (on_result cache n r) | Some _ => LBad | None => LW WDone end)
  | WRes c n rs cache => Send c_res2 (VCode c n) (LW (WBlames n rs cache))
  | WBlames n [] cache => Close (c_blames n) (LW (WLoop cache (S n)))
  | WBlames n (r :: rs) cache => Send (c_blames n) (VRecord r) (LW (WBlames n rs cache))
  | WDone => Send c_done2 VUnit (LW WStop)
  | WStop => Stop
  | WCrash _ => Crash
  end.
Definition f_act (f : fstate) : action :=
  match f with
  | FIdle => start_act c_start_f (LF FLoop)
  | FLoop => Recv c_res2 (fun v => match v with Some (VCode _ n) => LF (FBlames n) | Some _ => LBad | None => LF FDone end)
  | FBlames n => Recv (c_blames n) (fun v => match v with Some (VRecord r) => LF (FSend n r) | Some _ => LBad | None => LF FLoop end)
  | FSend n r => Send c_res (VRecord r) (LF (FBlames n))
  | FDone => Send c_done3 VUnit (LF FStop)
  | FStop => Stop
  end.
(** The caller, for instance CodeSlice (code.go:194-206). *)
Definition u_act (u : ustate) : action :=
  match u with
  | ULoop got => Recv c_res (fun v => match v with Some (VRecord r) => LU (ULoop (got ++ [r])) | Some _ => LBad | None => LU (UStop got) end)
  | UStop _ => Stop
  end.
Definition act (l : local) : action :=
  match l with LM m => m_act m | LP p => p_act p | LW w => w_act w | LF f => f_act f | LU u => u_act u | LBad => Crash end.

Definition code_call : config chan local := Config [LM MStartF; LP PIdle; LW WIdle; LF FIdle; LU (ULoop [])] ∅.
Definition code_step : config chan local -> config chan local -> Prop := step act.
End Pipeline.
