(** * Chances, as numbers of equally likely cases *)
From Verif.Model Require Import Base.

(** A byte as a number. *)
Definition byte (b : nat) : Prop := b < 256.
(** How many of the 256 values of a byte give [x]. *)
Definition cases (f : nat -> option ascii) (x : ascii) : nat := length (filter (fun b => f b = Some x) (seq 0 256)).
