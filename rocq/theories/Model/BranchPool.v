(** * The goroutines of a Branches call

    Models /repo/ripsrc/branches.go:13-47 (Branches), /repo/ripsrc/branches2/process.go:95-104,113-189 (New, Run, uniqueStrings) and
    /repo/ripsrc/branches2/name_hash.go:16-26 (Chan):

    - the main goroutine runs Branches and Run;
    - the feeder (name_hash.go:18-23) sends the branches and pull requests;
    - the workers (process.go:157-174) turn them into records;
    - the forwarder (branches.go:32-37) passes records on;
    - the caller receives them until the channel is closed (branches.go:52-57, BranchesSlice).

    Simplifications: lastErr is left out: processBranch returns no error (process.go:228-265), so it stays nil.  The WaitGroup is a
    channel: a worker's last act is a send that Run receives once per worker (Done does not block in Go, but nothing in the worker
    follows it).  A panic of a worker or of the main goroutine is the end of that goroutine (the whole program ends). *)
From Verif.Model Require Import Base GoStrings GoSort ParentsGraph Branches Net.

(** process.go:95-104 (New) and 157: the number of workers for the option Concurrency. *)
Definition workers_for (cpus : nat) (concurrency : Z) : nat :=
  if decide (concurrency = 0)%Z then cpus * 2 else Z.to_nat concurrency.

(** name_hash.go:11-14 (nameAndHash) *)
Definition item : Type := bytes * bytes.

(** process.go:180-189 (uniqueStrings): a map is filled and iterated, in an order [rng] of the runtime. *)
Definition unique_strings (rng : list bytes -> list bytes) (l : list bytes) : list bytes := rng (remove_dups l).
(** process.go:139-151: the work; [names]: what getNamesAndHashes returns. *)
Definition work_items (rng : list bytes -> list bytes) (prs_only : bool) (names : list item) (prs : list bytes) : list item :=
  (if prs_only then [] else names) ++ map (fun sha => ([], sha)) (unique_strings rng prs).

(** ** Channels *)
Definition bchan : Type := nat * nat.
Definition b_work : bchan := (0, 0).        (* process.go:153, workCh *)
Definition b_res2 : bchan := (1, 0).        (* branches.go:30, res2; the parameter res of Run *)
Definition b_done : bchan := (2, 0).        (* branches.go:31, done *)
Definition b_res : bchan := (3, 0).         (* the parameter res of Branches *)
Definition b_wg : bchan := (4, 0).          (* process.go:154, wg *)
(** The [go] statements of branches.go:32, name_hash.go:18 and process.go:159. *)
Definition b_start_f : bchan := (5, 0).
Definition b_start_p : bchan := (6, 0).
Definition b_start_w (i : nat) : bchan := (7, i).

Section Pool.
(** [pre_err]: an error before the forwarder is started (branches.go:15-28).  [dflt]: the default branch and its first commit are
    asked for (process.go:116-135): the record to send, if any, an error or a panic.  [names_err]: an error of getNamesAndHashes.
    [work]: processBranch, see [process_branch]; [items]: see [work_items]; [n]: the number of workers. *)
Context (pre_err : option bytes) (dflt : outcome (option branch)) (names_err : option bytes).
Context (work : item -> outcome (option branch)) (items : list item) (n : nat).

Inductive bvalue := BUnit | BItem (i : item) | BRec (b : branch).

Inductive bm :=
| BStartF
| BDefault (b : branch)                   (* process.go:127 *)
| BStartP
| BStartW (i : nat)                       (* process.go:157-174: workers from the i-th on are to be started *)
| BWait (k : nat)                         (* process.go:176: k workers to wait for *)
| BCloseRes2 (oc : outcome unit)          (* process.go:114 *)
| BWaitF (oc : outcome unit)              (* branches.go:46 *)
| BCloseRes (oc : outcome unit)           (* branches.go:14 *)
| BStop (oc : outcome unit)
| BCrash (m : bytes).
Inductive bp := BPIdle | BPSend (l : list item) | BPStop.
Inductive bw := BWIdle (i : nat) | BWLoop | BWSend (b : branch) | BWDone | BWStop | BWCrash (m : bytes).
Inductive bf := BFIdle | BFLoop | BFSend (b : branch) | BFDone | BFStop.
Inductive bu := BULoop (got : list branch) | BUStop (got : list branch).
Inductive blocal := LBM (m : bm) | LBP (p : bp) | LBF (f : bf) | LBU (u : bu) | LBW (w : bw) | LBBad.
Notation action := (action bchan bvalue blocal).

Definition wait_for (k : nat) : bm := match k with 0 => BCloseRes2 (Ret tt) | _ => BWait k end.
Definition start_from (i : nat) : bm := if decide (i < n) then BStartW i else wait_for n.
(** process.go:139-153 *)
Definition after_default : bm := match names_err with Some e => BCloseRes2 (Err e) | None => BStartP end.
(** process.go:116-135 *)
Definition after_start : bm :=
  match dflt with Ret (Some b) => BDefault b | Ret None => after_default | Err e => BCloseRes2 (Err e) | Panic m => BCrash m end.
Definition before_start : bm := match pre_err with Some e => BCloseRes (Err e) | None => BStartF end.

Definition bstart (c : bchan) (l : blocal) : action := Recv c (fun v => match v with Some BUnit => l | _ => LBBad end).
Definition bm_act (m : bm) : action :=
  match m with
  | BStartF => Send b_start_f BUnit (LBM after_start)
  | BDefault b => Send b_res2 (BRec b) (LBM after_default)
  | BStartP => Send b_start_p BUnit (LBM (start_from 0))
  | BStartW i => Send (b_start_w i) BUnit (LBM (start_from (S i)))
  | BWait k => Recv b_wg (fun v => match v with Some _ => LBM (wait_for (pred k)) | None => LBBad end)
  | BCloseRes2 oc => Close b_res2 (LBM (BWaitF oc))
  | BWaitF oc => Recv b_done (fun v => match v with Some _ => LBM (BCloseRes oc) | None => LBBad end)
  | BCloseRes oc => Close b_res (LBM (BStop oc))
  | BStop _ => Stop
  | BCrash _ => Crash
  end.
Definition bp_act (p : bp) : action :=
  match p with
  | BPIdle => bstart b_start_p (LBP (BPSend items))
  | BPSend [] => Close b_work (LBP BPStop)
  | BPSend (i :: l) => Send b_work (BItem i) (LBP (BPSend l))
  | BPStop => Stop
  end.
(** process.go:228-265: what the worker does with an item. *)
Definition on_item (i : item) : bw :=
  match work i with Ret (Some b) => BWSend b | Ret None => BWLoop | Err m | Panic m => BWCrash m end.
Definition bw_act (w : bw) : action :=
  match w with
  | BWIdle i => bstart (b_start_w i) (LBW BWLoop)
  | BWLoop => Recv b_work (fun v => match v with Some (BItem i) => LBW (on_item i) | Some _ => LBBad | None => LBW BWDone end)
  | BWSend b => Send b_res2 (BRec b) (LBW BWLoop)
  | BWDone => Send b_wg BUnit (LBW BWStop)
  | BWStop => Stop
  | BWCrash _ => Crash
  end.
Definition bf_act (f : bf) : action :=
  match f with
  | BFIdle => bstart b_start_f (LBF BFLoop)
  | BFLoop => Recv b_res2 (fun v => match v with Some (BRec b) => LBF (BFSend b) | Some _ => LBBad | None => LBF BFDone end)
  | BFSend b => Send b_res (BRec b) (LBF BFLoop)
  | BFDone => Send b_done BUnit (LBF BFStop)
  | BFStop => Stop
  end.
Definition bu_act (u : bu) : action :=
  match u with
  | BULoop got => Recv b_res (fun v => match v with Some (BRec b) => LBU (BULoop (got ++ [b])) | Some _ => LBBad | None => LBU (BUStop got) end)
  | BUStop _ => Stop
  end.
Definition bact (l : blocal) : action :=
  match l with LBM m => bm_act m | LBP p => bp_act p | LBF f => bf_act f | LBU u => bu_act u | LBW w => bw_act w | LBBad => Crash end.

Definition branches_call : config bchan blocal :=
  Config (LBM before_start :: LBP BPIdle :: LBF BFIdle :: LBU (BULoop []) :: map (fun i => LBW (BWIdle i)) (seq 0 n)) ∅.
End Pool.
