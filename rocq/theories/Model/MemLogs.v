(** * The lines about memory that the commands print (/repo/ripsrc/cmd/cmdutils/memstats.go; started and ended by cmdcode/cmd.go:53-56, cmdbranches/cmd.go:50-53)

    The caller of StartMemLogs and the goroutine that it starts, as a transition system: every list of actions that [run] accepts is an execution.
    Simplifications: times are nanoseconds since StartMemLogs was called; the [n]-th value that getAllocatedMemMB returns is [meas n], any function; the
    critical section (measuring and storing) is one step, as all that others do with the variable is to read it; a line is written in one step. *)
From Verif.Model Require Import Base.

Definition second : N := 1000000000.
Definition minute : N := 60 * second.
(** The two that call [log] (memstats.go:18-24): StartMemLogs itself (line 33) and the goroutine (26-31). *)
Inductive logger := Caller | Loop.
#[global] Instance logger_eq_dec : EqDecision logger. Proof. solve_decision. Defined.
(** Where one of them is: before line 19 (the goroutine: at line 28); before line 22; before line 23, with timeSinceStartMin; [Over]: [log] has returned to the caller. *)
Inductive place := Before | Stored | Timed (m : N) | Over.
#[global] Instance place_eq_dec : EqDecision place. Proof. solve_decision. Defined.
(** What happened, with the time. *)
Inductive event := Measured (w : logger) (v : N) | Line (w : logger) (m v : N) | Ended.
(** [m_mem]: allocatedMem; [m_n]: how often it was measured; [m_pending]: ticker.C has a value; [m_ticks]: how often the ticker fired. *)
Record mstate := MState { m_now : N; m_mem : N; m_n : nat; m_pending : bool; m_ticks : N; m_caller : place; m_loop : place; m_events : list (N * event) }.
Inductive action := Pass (d : N) | Tick | Measure (w : logger) | Clock (w : logger) | Print (w : logger) | End.

Definition at_place (s : mstate) (w : logger) : place := match w with Caller => m_caller s | Loop => m_loop s end.
Definition move (s : mstate) (w : logger) (p : place) : mstate :=
  match w with
  | Caller => MState (m_now s) (m_mem s) (m_n s) (m_pending s) (m_ticks s) p (m_loop s) (m_events s)
  | Loop => MState (m_now s) (m_mem s) (m_n s) (m_pending s) (m_ticks s) (m_caller s) p (m_events s)
  end.
Definition note (s : mstate) (e : event) : mstate :=
  MState (m_now s) (m_mem s) (m_n s) (m_pending s) (m_ticks s) (m_caller s) (m_loop s) (m_events s ++ [(m_now s, e)]).

Section Run.
Context (meas : nat -> N).
(** memstats.go:13-17: the value measured there is never printed, as [log] stores one first. *)
Definition started : mstate := MState 0 (meas 0) 1 false 0 Before Before [].
(** memstats.go:18-21: getAllocatedMemMB under the mutex. *)
Definition store (s : mstate) (w : logger) : mstate :=
  let v := meas (m_n s) in
  note (move (MState (m_now s) v (S (m_n s)) (m_pending s) (m_ticks s) (m_caller s) (m_loop s) (m_events s)) w Stored) (Measured w v).
(** memstats.go:28: one value is taken from ticker.C. *)
Definition receive (s : mstate) : mstate := MState (m_now s) (m_mem s) (m_n s) false (m_ticks s) (m_caller s) (m_loop s) (m_events s).
(** [None]: this cannot happen now. *)
Definition act (s : mstate) (a : action) : option mstate :=
  match a with
  | Pass d => Some (MState (m_now s + d) (m_mem s) (m_n s) (m_pending s) (m_ticks s) (m_caller s) (m_loop s) (m_events s))
  (* time.NewTicker(time.Second): the k-th tick comes after k seconds at the earliest; a tick that finds the channel full is dropped. *)
  | Tick => if ((m_ticks s + 1) * second <=? m_now s)%N
            then Some (MState (m_now s) (m_mem s) (m_n s) true (m_ticks s + 1) (m_caller s) (m_loop s) (m_events s)) else None
  (* 18-21 *)
  | Measure Caller => if decide (m_caller s = Before) then Some (store s Caller) else None
  | Measure Loop => if decide (m_loop s = Before) then if m_pending s then Some (store (receive s) Loop) else None else None
  (* 22 *)
  | Clock w => if decide (at_place s w = Stored) then Some (move s w (Timed (m_now s / minute))) else None
  (* 23: reads allocatedMem outside the mutex; the goroutine goes back to line 28 *)
  | Print w => match at_place s w with
               | Timed m => Some (move (note s (Line w m (m_mem s))) w match w with Caller => Over | Loop => Before end)
               | _ => None
               end
  (* 35-37: the function that StartMemLogs returned; it does nothing *)
  | End => if decide (m_caller s = Over) then Some (note s Ended) else None
  end.
Fixpoint run (s : mstate) (l : list action) : option mstate :=
  match l with [] => Some s | a :: r => match act s a with Some s' => run s' r | None => None end end.
End Run.
