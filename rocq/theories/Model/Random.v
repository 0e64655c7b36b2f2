(** * Random strings

    /repo/ripsrc/pkg/random/random.go.  What crypto/rand gives is a parameter. *)
From Verif.Model Require Import Base.

(** random.go:5 (LatinAndNumbers) *)
Definition latin_and_numbers : bytes := B "ABCDEFGHIJKLMNOPQRSTUVWXYZabcdefghijklmnopqrstuvwxyz0123456789".
(** random.go:19: [byte(len(chars))] keeps the lowest eight bits. *)
Definition as_byte (n : nat) : nat := n mod 256.
(** random.go:20-22: one round of the loop. *)
Definition pick (chars : bytes) (b : nat) : outcome ascii :=
  let lenc := as_byte (length chars) in
  if decide (lenc = 0) then Panic (B "integer divide by zero")
  else match chars !! (b mod lenc) with Some c => Ret c | None => Panic (B "index out of range") end.
(** random.go:17-24 (String), when [rand.Read] (random.go:7-14) gives the bytes [src], [count] of them. *)
Fixpoint random_string (chars : bytes) (src : list nat) : outcome bytes :=
  match src with
  | [] => Ret []
  | b :: src => do c <- pick chars b; do cs <- random_string chars src; Ret (c :: cs)
  end.
