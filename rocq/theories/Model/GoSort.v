(** * [sort.Strings]

    Go's standard library: [sort.Strings] puts a slice of strings in increasing byte-wise order.  The result
    does not depend on the algorithm, so a merge sort stands for Go's pdqsort. *)
From Verif.Model Require Import Base.

(** Go's [<=] on strings: byte-wise lexicographic. *)
Fixpoint bytes_leb (a b : bytes) : bool :=
  match a, b with
  | [], _ => true
  | _ :: _, [] => false
  | x :: a', y :: b' =>
      if (N_of_ascii x <? N_of_ascii y)%N then true
      else if (N_of_ascii x =? N_of_ascii y)%N then bytes_leb a' b' else false
  end.
Definition bytes_le (a b : bytes) : Prop := bytes_leb a b = true.
#[global] Instance bytes_le_dec : RelDecision bytes_le := fun a b => decide (bytes_leb a b = true).

Definition sort_strings (l : list bytes) : list bytes := merge_sort bytes_le l.
