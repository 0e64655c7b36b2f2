(** * Facts about [sort.Strings] *)
From Verif.Model Require Import Base GoSort.
From Coq Require Import Lia.

Lemma N_of_ascii_inj a b : N_of_ascii a = N_of_ascii b -> a = b.
Proof. intros H. rewrite <- (ascii_N_embedding a), <- (ascii_N_embedding b). by rewrite H. Qed.

#[global] Instance bytes_le_refl : Reflexive bytes_le.
Proof. intros a. unfold bytes_le. induction a as [|x a IH]; simpl; [done|]. by rewrite N.ltb_irrefl, N.eqb_refl. Qed.

#[global] Instance bytes_le_trans : Transitive bytes_le.
Proof.
  intros a b c. unfold bytes_le. revert b c. induction a as [|x a IH]; intros [|y b] [|z c]; simpl; try done.
  destruct (N.ltb_spec (N_of_ascii x) (N_of_ascii y)), (N.ltb_spec (N_of_ascii y) (N_of_ascii z)),
    (N.ltb_spec (N_of_ascii x) (N_of_ascii z)), (N.eqb_spec (N_of_ascii x) (N_of_ascii y)),
    (N.eqb_spec (N_of_ascii y) (N_of_ascii z)), (N.eqb_spec (N_of_ascii x) (N_of_ascii z)); try done; try lia; eauto.
Qed.

#[global] Instance bytes_le_total : Total bytes_le.
Proof.
  intros a. unfold bytes_le. induction a as [|x a IH]; intros [|y b]; simpl; try (by left); try (by right).
  destruct (N.ltb_spec (N_of_ascii x) (N_of_ascii y)), (N.ltb_spec (N_of_ascii y) (N_of_ascii x)),
    (N.eqb_spec (N_of_ascii x) (N_of_ascii y)), (N.eqb_spec (N_of_ascii y) (N_of_ascii x)); auto; lia.
Qed.

#[global] Instance bytes_le_antisymm : AntiSymm (=) bytes_le.
Proof.
  intros a. unfold bytes_le. induction a as [|x a IH]; intros [|y b]; simpl; try done.
  destruct (N.ltb_spec (N_of_ascii x) (N_of_ascii y)), (N.ltb_spec (N_of_ascii y) (N_of_ascii x)),
    (N.eqb_spec (N_of_ascii x) (N_of_ascii y)), (N.eqb_spec (N_of_ascii y) (N_of_ascii x)); try done; try lia.
  intros ??. f_equal; [by apply N_of_ascii_inj|by apply IH].
Qed.

Lemma sort_perm l : sort_strings l ≡ₚ l.
Proof. apply merge_sort_Permutation. Qed.
Lemma sort_sorted l : StronglySorted bytes_le (sort_strings l).
Proof. apply (StronglySorted_merge_sort bytes_le). Qed.
Lemma sort_unique l1 l2 : l1 ≡ₚ l2 -> sort_strings l1 = sort_strings l2.
Proof.
  intros H. apply (StronglySorted_unique bytes_le); try apply sort_sorted. by rewrite !sort_perm.
Qed.
