(** * Reading the output of a git command through a pipe

    /repo/ripsrc/gitexec/gitexec.go:125-139,151-161 (ExecPiped, ExecIntoWriter): the goroutine that runs git and writes its output into an io.Pipe,
    against any reader of the pipe.  Readers in /repo close the pipe when they return: /repo/ripsrc/commitmeta/commitmeta.go:135-174,
    /repo/ripsrc/parentsgraph/parents.go:69-85, /repo/ripsrc/history3/process/process.go:151-156.

    Go's os/exec copies the output with io.Copy: one Write after the other.  io.Pipe: a Write returns when its bytes have been read, or fails
    when the reader has closed; a Read returns some of the bytes of the current Write, or EOF after the writer's Close. *)
From Verif.Model Require Import Base GoStrings.

(** The writing goroutine: [WOut rest]: git is still going to print [rest]; [WChunk c rest]: a Write with [c] left to be read; [WEnd]: wr.Close
    (gitexec.go:132); [WCrash]: panic (gitexec.go:130), the end of the program. *)
Inductive writer := WOut (rest : bytes) | WChunk (c rest : bytes) | WEnd | WCrash.
Definition after_read (c rest : bytes) : writer := match c with [] => WOut rest | _ => WChunk c rest end.

Section Pipe.
(** The reader: [want s]: the size of the buffer of its next Read, or [None]: it closes the pipe.  [feed s (Some b)]: a Read returned [b];
    [feed s None]: EOF. *)
Context {S : Type} (want : S -> option nat) (feed : S -> option bytes -> S).
(** Whether git exits with status 0. *)
Context (ok : bool).

Record pconfig := PConfig { p_writer : writer; p_reader : S; p_closed : bool }.

Inductive pstep : pconfig -> pconfig -> Prop :=
| ps_chunk c rest r cl : c <> [] -> pstep (PConfig (WOut (c ++ rest)) r cl) (PConfig (WChunk c rest) r cl)
| ps_exit r cl : pstep (PConfig (WOut []) r cl) (PConfig (if ok then WEnd else WCrash) r cl)
| ps_read b c rest r k : want r = Some k -> b <> [] -> length b <= k ->
    pstep (PConfig (WChunk (b ++ c) rest) r false) (PConfig (after_read c rest) (feed r (Some b)) false)
| ps_eof r k : want r = Some k -> pstep (PConfig WEnd r false) (PConfig WEnd (feed r None) false)
| ps_close w r : want r = None -> w <> WCrash -> pstep (PConfig w r false) (PConfig w r true)
| ps_broken c rest r : pstep (PConfig (WChunk c rest) r true) (PConfig WCrash r true).
Definition pipe_start (out : bytes) (r : S) : pconfig := PConfig (WOut out) r false.
End Pipe.
Arguments PConfig {S}. Arguments p_writer {S}. Arguments p_reader {S}. Arguments p_closed {S}.

(** ** bufio.Scanner as a reader (Go's bufio/scan.go, Scan), with a consumer of lines

    [take_line s l]: what the caller does with line [l]; [None]: it returns at once (/repo/ripsrc/commitmeta/commitmeta.go:158-166).  [sc_pending]: the
    bytes in the buffer not yet returned as lines; [sc_cap]: len(buf).  Simplification: where in the buffer the pending bytes are is left out
    (a Read is given at most the free space, see [ps_read]). *)
Section Scanner.
Context {C : Type} (take_line : C -> bytes -> option C) (max : N).
Inductive scan_end := ScEof | ScTooLong | ScAbort.
Inductive scanner := ScRun (c : C) (pending : bytes) (cap : nat) | ScStop (c : C) (why : scan_end).

(** The first line in the buffer and what follows it. *)
Fixpoint cut_line (p : bytes) : option (bytes * bytes) :=
  match p with
  | [] => None
  | x :: p => if bool_decide (x = NL) then Some ([], p) else match cut_line p with Some (l, r) => Some (x :: l, r) | None => None end
  end.
(** Before a Read: a full buffer grows (4096 bytes, then twice as much each time, up to [max]), or the line is too long. *)
Definition make_room (c : C) (p : bytes) (cap : nat) : scanner :=
  if decide (length p = cap) then
    if (max <=? N.of_nat cap)%N then ScStop c ScTooLong
    else ScRun c p (N.to_nat (N.min max (if decide (cap = O) then 4096 else 2 * N.of_nat cap)%N))
  else ScRun c p cap.
(** The lines that are complete; [fuel]: their number is at most the number of bytes. *)
Fixpoint scan_pending (fuel : nat) (c : C) (p : bytes) (cap : nat) : scanner :=
  match fuel with
  | 0 => make_room c p cap
  | S fuel =>
      match cut_line p with
      | None => make_room c p cap
      | Some (l, r) => match take_line c (drop_cr l) with Some c' => scan_pending fuel c' r cap | None => ScStop c ScAbort end
      end
  end.
Definition scanner_start (c : C) : scanner := make_room c [] 0.
Definition scanner_want (s : scanner) : option nat := match s with ScRun _ p cap => Some (cap - length p) | ScStop _ _ => None end.
Definition scanner_feed (s : scanner) (b : option bytes) : scanner :=
  match s, b with
  | ScRun c p cap, Some b => scan_pending (length (p ++ b)) c (p ++ b) cap
  | ScRun c p cap, None =>
      match p with [] => ScStop c ScEof | _ => match take_line c (drop_cr p) with Some c' => ScStop c' ScEof | None => ScStop c ScAbort end end
  | ScStop _ _, _ => s
  end.
End Scanner.
