(** * A whole checkpoint as one message: what can be encoded *)
From Verif.Model Require Import Base Msgp MsgpData.
From Verif.Spec Require Import Checkpoint.

(** Less than 2^32 elements. *)
Definition few {A} (l : list A) : Prop := (N.of_nat (length l) < 4294967296)%N.
(** Every record can be encoded, and there are not too many of each kind. *)
Definition wf_data (z : ddata) : Prop :=
  Forall wf_row (da_rows z) /\ Forall wf_dblame (da_blames z) /\ Forall wf_dline (da_lines z) /\ Forall wf_ldata (da_ldata z) /\
  few (da_rows z) /\ few (da_blames z) /\ few (da_lines z) /\ few (da_ldata z).
(** [dec] gives back what [enc] wrote, whatever value it decodes into and whatever follows, and never accepts part of it. *)
Definition decodes_into {R} (wf : R -> Prop) (enc : R -> bytes) (dec : R -> bytes -> dres R) : Prop :=
  forall z, wf z -> (forall old rest, dec old (enc z ++ rest) = DOk z rest) /\ (forall old p z' rest, cut p (enc z) -> dec old p <> DOk z' rest).
(** [size] is at least the number of bytes that [enc] writes. *)
Definition bounds {R} (size : R -> nat) (enc : R -> bytes) : Prop := forall z, length (enc z) <= size z.
