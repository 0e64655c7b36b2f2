(** Hunk headers: what parse_context makes of the header git prints. *)
From Verif.Model Require Import Base GoStrings IncBlame.
From Verif.Spec Require Import Text UnifiedDiff.
From Verif.Proofs Require Import TextLemmas.
From Coq Require Import Lia.

(** The location the code derives for a printed range. *)
Definition parsed_loc (op : optype) (pos cnt : nat) : hloc :=
  if Nat.eqb cnt 1 then HLoc op 0 (Z.of_nat (pos + 1))
  else if Nat.eqb cnt 0 then HLoc op (Z.of_nat pos) 0
  else HLoc op (Z.of_nat (pos + 1)) (Z.of_nat cnt).

Definition range_char (c : ascii) : bool := is_digit c || bool_decide (c = ","%char).
Lemma show_nat_range_char n : forallb range_char (show_nat n) = true.
Proof.
  unfold show_nat. pose proof (show_digits (N.of_nat n)) as H.
  rewrite forallb_forall in *. intros x Hx. unfold range_char. by rewrite H.
Qed.
Lemma show_range_chars pos cnt : forallb range_char (show_range pos cnt) = true.
Proof.
  unfold show_range. destruct (Nat.eqb cnt 1); [apply show_nat_range_char|].
  destruct (Nat.eqb cnt 0); rewrite !forallb_app, !show_nat_range_char; done.
Qed.
Lemma show_range_not_elem c pos cnt : range_char c = false -> c ∉ show_range pos cnt.
Proof.
  intros Hc He. pose proof (show_range_chars pos cnt) as H. rewrite forallb_forall in H.
  apply elem_of_list_In in He. specialize (H _ He). congruence.
Qed.
Lemma show_nat_last n : exists u d, show_nat n = u ++ [d] /\ is_digit d = true.
Proof.
  unfold show_nat. pose proof (show_digits (N.of_nat n)) as H. pose proof (show_not_nil (N.of_nat n)) as Hn.
  destruct (show (N.of_nat n)) as [|d u _] using rev_ind; [done|].
  exists u, d. split; [done|]. rewrite forallb_app in H. apply andb_true_iff in H as [_ H].
  cbn in H. by apply andb_true_iff in H as [-> _].
Qed.
Lemma show_range_last pos cnt : exists u d, show_range pos cnt = u ++ [d] /\ is_digit d = true.
Proof.
  unfold show_range. destruct (Nat.eqb cnt 1); [apply show_nat_last|].
  destruct (Nat.eqb cnt 0).
  - exists (show_nat pos ++ B ","), "0"%char. by rewrite <-app_assoc.
  - destruct (show_nat_last cnt) as (u & d & -> & Hd).
    exists (show_nat (pos + 1) ++ B "," ++ u), d. by rewrite <-!app_assoc.
Qed.
Lemma show_range_not_nil pos cnt : show_range pos cnt <> [].
Proof. destruct (show_range_last pos cnt) as (u & d & -> & _). by destruct u. Qed.

Lemma parse_ctx_part_range (c : ascii) op pos cnt :
  (c = "-"%char /\ op = OpDel) \/ (c = "+"%char /\ op = OpAdd) ->
  parse_ctx_part (c :: show_range pos cnt) = Ret (parsed_loc op pos cnt).
Proof.
  intros Hc. unfold parse_ctx_part.
  destruct (show_range pos cnt) as [|x r] eqn:Hr; [by destruct (show_range_not_nil pos cnt)|].
  assert ((if bool_decide (c = "-"%char) then Ret OpDel
           else if bool_decide (c = "+"%char) then Ret OpAdd else Panic (B "invalid op")) = Ret op) as ->.
  { destruct Hc as [[-> ->]|[-> ->]]; done. }
  cbn [obind]. rewrite <-Hr. clear Hr x r. unfold show_range, parsed_loc.
  destruct (Nat.eqb cnt 1) eqn:H1.
  - rewrite split_char_no by (by apply show_nat_not_elem). by rewrite atoi_show_nat.
  - destruct (Nat.eqb cnt 0) eqn:H0.
    + change (B ",0") with ([","%char] ++ show_nat 0). cbn [app].
      rewrite split_char_cons by (by apply show_nat_not_elem).
      rewrite split_char_no by (by apply show_nat_not_elem).
      by rewrite !atoi_show_nat.
    + change (B ",") with [","%char]. cbn [app].
      rewrite split_char_cons by (by apply show_nat_not_elem).
      rewrite split_char_no by (by apply show_nat_not_elem).
      by rewrite !atoi_show_nat.
Qed.

Lemma find_end_skip t c i a b : AT ∉ a -> c <> t -> find_end t c i (a ++ b) = find_end t c (i + length a) b.
Proof.
  revert i. induction a as [|x a IH]; intros i Ha Hc; cbn; [by rewrite Nat.add_0_r|].
  apply not_elem_of_cons in Ha as [Hx Ha]. rewrite bool_decide_eq_false_2 by congruence.
  destruct (Nat.eqb_spec c t); [done|]. rewrite IH by done. f_equal. lia.
Qed.

Lemma parse_context_header o oc n nc heading :
  parse_context (hunk_header o oc n nc heading) = Ret [parsed_loc OpDel o oc; parsed_loc OpAdd n nc].
Proof.
  unfold parse_context, hunk_header.
  set (r1 := show_range o oc). set (r2 := show_range n nc).
  set (mid := B " -" ++ r1 ++ B " +" ++ r2 ++ B " ").
  assert (Hh : B "@@ -" ++ r1 ++ B " +" ++ r2 ++ B " @@" ++ heading = AT :: AT :: mid ++ AT :: AT :: heading).
  { unfold mid. change (B "@@ -") with (AT :: AT :: B " -"). change (B " @@") with (B " " ++ [AT; AT]).
    cbn [app]. by rewrite <-!app_assoc. }
  rewrite Hh.
  assert (Hmid : AT ∉ mid).
  { unfold mid. rewrite !not_elem_of_app. split_and!; try (apply show_range_not_elem; done);
      cbn; rewrite !not_elem_of_cons; split_and!; done || apply not_elem_of_nil. }
  assert (count_lead_at (AT :: AT :: mid ++ AT :: AT :: heading) = 2) as -> by done.
  change (find_end (2 * 2) 0 0 (AT :: AT :: mid ++ AT :: AT :: heading))
    with (find_end 4 2 2 (mid ++ AT :: AT :: heading)).
  rewrite find_end_skip by done.
  change (find_end 4 2 (2 + length mid) (AT :: AT :: heading)) with (Some (S (2 + length mid))).
  cbn [Nat.add].
  assert (take (S (S (S (length mid)))) (AT :: AT :: mid ++ AT :: AT :: heading) = AT :: AT :: mid ++ [AT]) as ->.
  { cbn [take]. f_equal. f_equal.
    replace (mid ++ AT :: AT :: heading) with ((mid ++ [AT]) ++ AT :: heading) by (by rewrite <-app_assoc).
    rewrite take_app_le by (rewrite app_length; cbn; lia).
    rewrite take_ge; [done|]. rewrite app_length; cbn; lia. }
  assert (trim is_at_sp (AT :: AT :: mid ++ [AT]) = "-"%char :: r1 ++ SP :: "+"%char :: r2) as ->.
  { unfold trim. change (trim_left is_at_sp (AT :: AT :: mid ++ [AT]))
      with ("-"%char :: (r1 ++ B " +" ++ r2 ++ B " ") ++ [AT]).
    assert ("-"%char :: (r1 ++ B " +" ++ r2 ++ B " ") ++ [AT] = ("-"%char :: r1 ++ SP :: "+"%char :: r2) ++ [SP; AT]) as ->.
    { cbn. f_equal. rewrite <-!app_assoc. f_equal. cbn. by rewrite <-!app_assoc. }
    rewrite trim_right_all by done.
    destruct (show_range_last n nc) as (u & d & Hu & Hd). fold r2 in Hu. rewrite Hu.
    assert ("-"%char :: r1 ++ SP :: "+"%char :: u ++ [d] = ("-"%char :: r1 ++ SP :: "+"%char :: u) ++ [d]) as ->.
    { cbn. by rewrite <-!app_assoc. }
    apply trim_right_stop. unfold is_at_sp.
    rewrite !bool_decide_eq_false_2; [done|intros ->; done..]. }
  change ("-"%char :: r1 ++ SP :: "+"%char :: r2) with (("-"%char :: r1) ++ SP :: ("+"%char :: r2)).
  rewrite split_char_cons; [|apply not_elem_of_cons; split; [done|by apply show_range_not_elem]].
  rewrite split_char_no; [|apply not_elem_of_cons; split; [done|by apply show_range_not_elem]].
  cbn [omapM]. unfold r1, r2.
  rewrite (parse_ctx_part_range _ OpDel) by auto. cbn [obind].
  rewrite (parse_ctx_part_range _ OpAdd) by auto. done.
Qed.

(** The index at which Apply starts the hunk (apply.go:122-125). *)
Definition start_index (off : Z) : Z := if (off - 1 =? -1)%Z then 0%Z else (off - 1)%Z.

Lemma parsed_loc_start op pos cnt :
  2 <= cnt \/ pos = 0 -> start_index (hl_off (parsed_loc op pos cnt)) = Z.of_nat pos.
Proof.
  intros H. unfold parsed_loc, start_index.
  destruct (Nat.eqb_spec cnt 1); [|destruct (Nat.eqb_spec cnt 0)]; cbn [hl_off];
    match goal with |- context [(?a =? ?b)%Z] => destruct (Z.eqb_spec a b) end; lia.
Qed.
