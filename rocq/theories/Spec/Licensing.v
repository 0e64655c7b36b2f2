(** * Which licence a file has *)
From Verif.Model Require Import Base GoStrings License.

Definition any_order (order : gmap bytes Z -> list (bytes * Z)) : Prop := forall kv, order kv ≡ₚ map_to_list kv.
(** [l] is one of the licences found, and none is more likely. *)
Definition most_likely (kv : gmap bytes Z) (l : license) : Prop :=
  kv !! li_name l = Some (li_confidence l) /\ forall n c, kv !! n = Some c -> (c <= li_confidence l)%Z.
(** No other licence is as likely. *)
Definition clear_winner (kv : gmap bytes Z) (l : license) : Prop :=
  kv !! li_name l = Some (li_confidence l) /\ forall n c, kv !! n = Some c -> n <> li_name l -> (c < li_confidence l)%Z.
(** At least as likely as the float32 nearest to 0.85. *)
Definition likely_enough (c : Z) : Prop := (14260634 * 2 ^ 125 <= c)%Z.
