(** * Calls that return everything at once

    - commitmeta.Processor.RunSlice and RunMap (/repo/ripsrc/commitmeta/commitmeta.go:106-118, 120-133), branches2.Process.RunSlice
      (branches2/process.go:214-226), Ripsrc.CodeSlice (code.go:194-206) and BranchesSlice (branches.go:49-61): the call itself sends, a second
      goroutine collects;
    - parser.Parser.RunGetAll (history3/process/parser/parser.go:194-207): a second goroutine sends, the call collects;
    - process.Process.RunGetAll (history3/process/process.go:781-794): the same, with Run (process.go:131-219), which has a goroutine of its own.

    Simplifications: a variable that is written before a message on [done] and read after it is part of that message.  In the first two networks what is sent
    is one list (the functions Run of commitmeta and of the parser send from one goroutine; the reader of git's output is left out, and so is the reader of filejobs
    (commitmeta.go:149-155: Model/MetaRun.v)), and a panic while
    sending runs the deferred close(res) and then ends the program. *)
From Verif.Model Require Import Base GoStrings IncBlame LogParser ParentsGraph Process Msgp Checkpoint CheckpointFS Net Pipeline.

(** ** Channels *)
Definition g_res : chan := (0, 0).
Definition g_done : chan := (1, 0).
Definition g_start : chan := (2, 0).

Section Collect.
(** [put]: what is done with a value received.  [xs], [oc]: what Run sends, and how it ends. *)
Context {V A : Type} (put : A -> V -> A) (a0 : A) (xs : list V) (oc : outcome unit).

Inductive cvalue := CUnit | CVal (v : V) | CGot (a : A) | CEnd (oc : outcome unit).
Inductive clocal :=
| CStart                                    (* the go statement *)
| CSend (l : list V)                        (* Run *)
| CEnded                                    (* after the deferred close(res): <-done in RunSlice, done <- true in RunGetAll *)
| CIdle | CLoop (a : A)                     (* for r := range resChan *)
| CSendGot (a : A)                          (* done <- true in RunSlice *)
| CWaitEnd (a : A)                          (* <-done in RunGetAll *)
| CRet (a : A) (oc : outcome unit)
| CStop | CBad.
Notation action := (action chan cvalue clocal).

(** [slice]: RunSlice (true) or RunGetAll (false). *)
Definition c_act (slice : bool) (l : clocal) : action :=
  match l with
  | CStart => Send g_start CUnit (if slice then CSend xs else CLoop a0)
  | CIdle => Recv g_start (fun v => match v with Some CUnit => if slice then CLoop a0 else CSend xs | _ => CBad end)
  | CSend (v :: l) => Send g_res (CVal v) (CSend l)
  | CSend [] => Close g_res CEnded
  | CEnded => match oc with
              | Panic m => Crash
              | _ => if slice then Recv g_done (fun v => match v with Some (CGot a) => CRet a oc | _ => CBad end)
                     else Send g_done (CEnd oc) CStop
              end
  | CLoop a => Recv g_res (fun v => match v with Some (CVal v) => CLoop (put a v) | Some _ => CBad | None => if slice then CSendGot a else CWaitEnd a end)
  | CSendGot a => Send g_done (CGot a) CStop
  | CWaitEnd a => Recv g_done (fun v => match v with Some (CEnd oc) => CRet a oc | _ => CBad end)
  | CRet _ _ | CStop => Stop
  | CBad => Crash
  end.
Definition collect_call : config chan clocal := Config [CStart; CIdle] ∅.
End Collect.

(** ** Process.RunGetAll *)
Section GetAll.
Context (skip : bytes -> pres unit) (e : env) (o : popts) (disk : fs) (text : bytes) (log_err write_err : option bytes).
(** The goroutine of Run and that of the parser, see Model/Pipeline.v; the types of that model that do not matter here are [unit]. *)
Notation plocal := (@local unit unit).
Inductive rvalue := RUnit | RV (v : @value unit unit) | REnd (oc : outcome unit).
Inductive rlocal :=
| RStart | RLoop (got : list result) | RWait (got : list result) | RRet (got : list result) (oc : outcome unit)    (* the call *)
| RIdle | RL (l : plocal) | RDone (oc : outcome unit) (w : option (repo * bytes)) | RStop (oc : outcome unit) (w : option (repo * bytes))
| RBad.
Definition lift (a : action chan (@value unit unit) plocal) : action chan rvalue rlocal :=
  match a with
  | Send c v k => Send c (RV v) (RL k)
  | Recv c k => Recv c (fun v => match v with Some (RV v) => RL (k (Some v)) | Some _ => RBad | None => RL (k None) end)
  | Close c k => Close c (RL k)
  | Stop => Stop
  | Crash => Crash
  end.
(** process.go:131-219.  [log_err]: the commit graph or the log cannot be read (136-159).  The channel of results is [c_gitres]. *)
Definition run_act (l : plocal) : action chan rvalue rlocal :=
  match l with
  | LM (MCloseGit oc w) => Close c_gitres (RDone oc w)
  | LM m => match m with
            | MStartP | MLoop _ | MSend _ _ _ | MDrain _ | MWait _ _ => lift (m_act skip e o disk None log_err write_err m)
            | _ => Crash                       (* a panic; the other states do not occur *)
            end
  | LP p => lift (p_act text p)
  | _ => Crash
  end.
Definition r_act (l : rlocal) : action chan rvalue rlocal :=
  match l with
  | RStart => Send c_start_w RUnit (RLoop [])
  | RIdle => Recv c_start_w (fun v => match v with Some RUnit => RL (LM (match log_err with Some x => MCloseGit (Err x) None | None => MStartP end)) | _ => RBad end)
  | RL l => run_act l
  | RDone oc w => Send c_done2 (REnd oc) (RStop oc w)
  | RLoop got => Recv c_gitres (fun v => match v with Some (RV (VResult r)) => RLoop (got ++ [r]) | Some _ => RBad | None => RWait got end)
  | RWait got => Recv c_done2 (fun v => match v with Some (REnd oc) => RRet got oc | _ => RBad end)
  | RRet _ _ | RStop _ _ => Stop
  | RBad => Crash
  end.
Definition get_all_call : config chan rlocal := Config [RStart; RIdle; RL (LP PIdle)] ∅.
End GetAll.
