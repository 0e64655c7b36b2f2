(** * The goroutines of commitmeta

    /repo/ripsrc/commitmeta/commitmeta.go:106-172: RunSlice and RunMap with Run and its channel filejobs (148-155), which has room for 100 elements and a
    reader that throws them away.  Simplifications: the goroutine that runs git is left out (Model/GitPipe.v); a panic of the parser, which ends the program,
    is left out; the variable that is written before a message on [done] and read after it is part of that message. *)
From Verif.Model Require Import Base.

Section MetaRun.
(** [put]: what is done with a commit received.  [started]: the log could be started (136-139).  [es]: what Run sends while it reads the log, a file (430, 451, 463,
    471) or a commit, in order.  [oc]: how it ends. *)
Context {V A : Type} (put : A -> V -> A) (a0 : A).
Inductive event := File | Commit (v : V).
Context (started : bool) (es : list event) (oc : outcome unit).

(** The call; the goroutine that collects; how many elements are in filejobs; how many goroutines wait for elements of such channels (of this call
    and of the calls before). *)
Inductive caller := Start | Begin | Sending (l : list event) | Waiting | Returned (a : A).
Inductive collector := Idle | Collecting (a : A) | Collected (a : A) | Gone.
Record mrun := MRun { m_caller : caller; m_coll : collector; m_jobs : nat; m_drains : nat }.
(** 149: make(chan *CommitFile, 100) *)
Definition room : nat := 100.

Inductive mstep : mrun -> mrun -> Prop :=
| ms_go n : mstep (MRun Start Idle 0 n) (MRun Begin (Collecting a0) 0 n)                                      (* 109-114, 123-128 *)
| ms_begin a n : started = true -> mstep (MRun Begin (Collecting a) 0 n) (MRun (Sending es) (Collecting a) 0 (S n))   (* 137-155 *)
| ms_no_log a n : started = false -> mstep (MRun Begin (Collecting a) 0 n) (MRun Waiting (Collecting a) 0 n)  (* 138-140; close(res) *)
| ms_file l k j n : j < room -> mstep (MRun (Sending (File :: l)) k j n) (MRun (Sending l) k (S j) n)
| ms_drain c k j n : 0 < n -> mstep (MRun c k (S j) n) (MRun c k j n)                                         (* 151 *)
| ms_commit v l a j n : mstep (MRun (Sending (Commit v :: l)) (Collecting a) j n) (MRun (Sending l) (Collecting (put a v)) j n)
| ms_close k j n : mstep (MRun (Sending []) k j n) (MRun Waiting k j n)                                       (* 135, close(res) *)
| ms_closed a j n : mstep (MRun Waiting (Collecting a) j n) (MRun Waiting (Collected a) j n)                  (* 110, 124 *)
| ms_done a j n : mstep (MRun Waiting (Collected a) j n) (MRun (Returned a) Gone j n).                        (* 113, 116 *)
Definition meta_call (before : nat) : mrun := MRun Start Idle 0 before.
(** The error of the call (137-140, 158-171). *)
Definition meta_error (log_err : bytes) : outcome unit := if started then oc else Err log_err.
End MetaRun.
Arguments event V : clear implicits.
