(** * What the reader of git's output gets *)
From Verif.Model Require Import Base GoStrings GitPipe.
From Verif.Spec Require Import Text.

(** The reader, starting as [r0], got the bytes [d], in pieces that fit its buffers, and then [eofs] times the end of the file. *)
Inductive got {S} (want : S -> option nat) (feed : S -> option bytes -> S) (r0 : S) : S -> bytes -> nat -> Prop :=
| got_nothing : got want feed r0 r0 [] 0
| got_piece r d b k : got want feed r0 r d 0 -> want r = Some k -> b <> [] -> length b <= k -> got want feed r0 (feed r (Some b)) (d ++ b) 0
| got_end r d n k : got want feed r0 r d n -> want r = Some k -> got want feed r0 (feed r None) d (n + 1).
(** A reader that always reads or closes, and closes after the end of the file. *)
Definition sane_reader {S} (want : S -> option nat) (feed : S -> option bytes -> S) (r0 : S) : Prop :=
  forall r d n, got want feed r0 r d n -> (forall k, want r = Some k -> 0 < k) /\ (0 < n -> want r = None).
(** A caller that handles the lines one after the other until it has had enough ([true]). *)
Fixpoint handle {C} (take_line : C -> bytes -> option C) (c : C) (ls : list bytes) : C * bool :=
  match ls with
  | [] => (c, false)
  | l :: ls => match take_line c l with Some c' => handle take_line c' ls | None => (c, true) end
  end.
(** Nothing can happen any more. *)
Definition stuck {S} (want : S -> option nat) feed ok (c : pconfig (S := S)) : Prop := forall c', ~ pstep want feed ok c c'.
(** A line that a scanner with the limit [max] returns as it is. *)
Definition plain_line (max : N) (l : bytes) : Prop := no_nl l /\ no_trailing_cr l /\ (N.of_nat (length l) < max)%N.
