(** * Basic vocabulary of the model

    Go values: [string] and [[]byte] are lists of bytes ([list ascii]); a Go [error] return is [Err],
    a panic (explicit or runtime) is [Panic].  No file of /repo corresponds to this one; it fixes the
    notation used by all the others. *)
From stdpp Require Export base list strings gmap sorting.
From Coq Require Export NArith ZArith Ascii.
From Coq Require Import Lia.

#[global] Open Scope list_scope.

Definition bytes := list ascii.
Definition B (s : string) : bytes := list_ascii_of_string s.
Arguments B s%string_scope.

#[global] Instance bytes_eq_dec : EqDecision bytes := _.
#[global] Instance bytes_countable : Countable bytes := _.

(** Boolean equality of byte strings (Go [==] on strings, [bytes.Equal]). *)
Definition beq (a b : bytes) : bool := bool_decide (a = b).

(** Result of a Go call: a normal return, an error return, or a panic.  The texts are only used for
    documentation and in the (few) theorems that speak about an error message. *)
Inductive outcome (A : Type) : Type :=
| Ret (a : A)
| Err (e : bytes)
| Panic (m : bytes).
Arguments Ret {A} a.
Arguments Err {A} e.
Arguments Panic {A} m.

Definition obind {A C} (o : outcome A) (f : A -> outcome C) : outcome C :=
  match o with Ret a => f a | Err e => Err e | Panic m => Panic m end.

Notation "'do' x '<-' a ';' b" := (obind a (fun x => b))
  (at level 200, x pattern, a at level 100, b at level 200, right associativity).

Definition omap_o {A C} (f : A -> C) (o : outcome A) : outcome C := do a <- o; Ret (f a).

Fixpoint ofold {S A} (f : S -> A -> outcome S) (s : S) (l : list A) : outcome S :=
  match l with
  | [] => Ret s
  | x :: r => do s' <- f s x; ofold f s' r
  end.

Fixpoint omapM {A C} (f : A -> outcome C) (l : list A) : outcome (list C) :=
  match l with
  | [] => Ret []
  | x :: r => do y <- f x; do ys <- omapM f r; Ret (y :: ys)
  end.


(** Characters used by the text formats. *)
Definition NL : ascii := "010"%char.
Definition CR : ascii := "013"%char.
Definition TAB : ascii := "009"%char.
Definition SP : ascii := " "%char.
Definition QUOTE : ascii := """"%char.
Definition AT : ascii := "@"%char.
