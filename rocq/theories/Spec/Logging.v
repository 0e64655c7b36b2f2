(** * Logging: what is asked for *)
From Verif.Model Require Import Base GoStrings.
From Verif.Spec Require Import Text.

(** [l] has the elements of the lists [tss], those of each list in its order. *)
Inductive interleaving {A} : list (list A) -> list A -> Prop :=
| il_nil tss : Forall (fun t => t = []) tss -> interleaving tss []
| il_cons tss i x t l : tss !! i = Some (x :: t) -> interleaving (<[i := t]> tss) l -> interleaving tss (x :: l).
