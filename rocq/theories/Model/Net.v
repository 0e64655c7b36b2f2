(** * Goroutines and unbuffered channels

    The part of Go's semantics the code relies on (The Go Programming Language Specification: "Send statements", "Receive operator",
    "Close", "Handling panics"), used by Model/Pipeline.v and Model/BranchPool.v for /repo/ripsrc/code.go:64-206,
    /repo/ripsrc/history3/process/process.go:131-219 and /repo/ripsrc/branches2/process.go:113-178.  All channels of the project are
    unbuffered: a send and a receive happen together.  Local computation between two channel operations is one step. *)
From Verif.Model Require Import Base.

Section Net.
Context {Ch V L : Type} `{Countable Ch}.

(** What a goroutine does next.  [Stop]: it has returned.  [Crash]: it has panicked.  A goroutine that is started later is one that waits
    for a start message. *)
Inductive action :=
| Send (c : Ch) (v : V) (k : L)
| Recv (c : Ch) (k : option V -> L)       (* None: the channel is closed *)
| Close (c : Ch) (k : L)
| Stop
| Crash.
Context (act : L -> action).

(** The goroutines, and the closed channels. *)
Record config := Config { locals : list L; closed : gset Ch }.

Inductive step : config -> config -> Prop :=
| step_comm ls cl i j l l' c v k kr :
    ls !! i = Some l -> act l = Send c v k -> ls !! j = Some l' -> act l' = Recv c kr -> c ∉ cl ->
    step (Config ls cl) (Config (<[ i := k ]> (<[ j := kr (Some v) ]> ls)) cl)
| step_eof ls cl j l c kr :
    ls !! j = Some l -> act l = Recv c kr -> c ∈ cl ->
    step (Config ls cl) (Config (<[ j := kr None ]> ls) cl)
| step_close ls cl i l c k :
    ls !! i = Some l -> act l = Close c k -> c ∉ cl ->
    step (Config ls cl) (Config (<[ i := k ]> ls) ({[ c ]} ∪ cl)).

(** The goroutine is about to panic: by itself, by a send on a closed channel, or by closing a closed channel.  This ends the whole
    program, at some moment before or after further steps of other goroutines. *)
Definition panics (cl : gset Ch) (l : L) : Prop :=
  match act l with
  | Crash => True
  | Send c _ _ => c ∈ cl
  | Close c _ => c ∈ cl
  | _ => False
  end.
Definition crashing (c : config) : Prop := exists l, l ∈ locals c /\ panics (closed c) l.
(** Nothing can happen any more. *)
Definition final (c : config) : Prop := forall c', ~ step c c'.
End Net.
Arguments action Ch V L : clear implicits.
Arguments config Ch L {_ _}.
