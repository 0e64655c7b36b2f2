(** * The lines of branches: proofs for C104 *)
From Verif.Model Require Import Base GoStrings Branches BranchMeta Stats StatsText BranchesCommand BranchLine.
From Verif.Spec Require Import Text StatsReport BranchReading.
From Verif.Proofs Require Import TextLemmas StatsTextProofs.
From Coq Require Import Lia.

Lemma words_inj l l' : l <> [] -> l' <> [] -> Forall (fun x => SP ∉ x) l -> Forall (fun x => SP ∉ x) l' -> words l = words l' -> l = l'.
Proof.
  intros Hn Hn' H H' E. rewrite <-!join_words in E. apply (f_equal (split_char SP)) in E. by rewrite !split_char_join in E.
Qed.
Lemma println_text (ls : list (list bytes)) : concat (map println ls) = unlines (map words ls).
Proof. exact (unlines_map (fun x => x) ls). Qed.
Lemma all_words b : plain_branch b -> Forall one_word (branch_words (branch_line b)).
Proof.
  intros (H1 & H2 & H3). assert (C : forall s, forallb (fun c => negb (bool_decide (c = SP)) && negb (bool_decide (c = NL))) (B s) = true -> one_word (B s)).
  { intros s Hs. rewrite forallb_forall in Hs. split; intros K; apply elem_of_list_In in K; apply Hs in K; discriminate. }
  assert (Hi : forall n, one_word (int_text n)) by (intros n; change int_text with show_nat; split; by apply show_nat_not_elem).
  unfold branch_words, branch_line. cbn [bi_name bi_commits bi_first bi_commit0]. apply Forall_app. split.
  - apply Forall_cons. split; [apply C; reflexivity|]. apply Forall_cons. split; [exact H1|]. apply Forall_cons. split; [apply C; reflexivity|]. apply Forall_cons. split; [apply Hi|].
    apply Forall_cons. split; [apply C; reflexivity|]. apply Forall_cons. split; [exact H2|]. apply Forall_nil_2.
  - destruct (br_commits b) as [|c cs]; [apply Forall_nil_2; exact I|]. cbn [head]. apply Forall_cons in H3 as [H3 _]. apply Forall_cons. split; [apply C; reflexivity|]. apply Forall_cons. split; [exact H3|apply Forall_nil_2; exact I].
Qed.
Lemma words_same b b' : branch_words (branch_line b) = branch_words (branch_line b') -> same_branch b b'.
Proof.
  unfold branch_words, branch_line. cbn [bi_name bi_commits bi_first bi_commit0 app]. change int_text with show_nat. intros E. injection E as E1 E2 E3 E4. apply show_nat_inj in E2.
  split; [exact E1|]. split; [exact E2|]. split; [exact E3|]. destruct (br_commits b), (br_commits b'); cbn [head] in E4; [reflexivity|discriminate..|]. injection E4 as ->. reflexivity.
Qed.
Lemma branches_inj (bs bs' : list branch) : Forall plain_branch bs -> Forall plain_branch bs' ->
  concat (map (fun b => branch_text (branch_line b)) bs) = concat (map (fun b => branch_text (branch_line b)) bs') -> Forall2 same_branch bs bs'.
Proof.
  intros H H' E. assert (U : forall l, concat (map (fun b => branch_text (branch_line b)) l) = unlines (map (fun b => words (branch_words (branch_line b))) l)).
  { intros l. unfold branch_text. apply (unlines_map (fun b => branch_words (branch_line b))). }
  assert (Nl : forall l, Forall plain_branch l -> Forall no_nl (map (fun b => words (branch_words (branch_line b))) l)).
  { intros l Hl. apply Forall_map. eapply Forall_impl; [exact Hl|]. intros b Hb. apply words_nl. eapply Forall_impl; [by apply all_words|]. intros x [_ Hx]. exact Hx. }
  rewrite !U in E. apply (f_equal raw_lines) in E. rewrite !raw_lines_unlines in E by (by apply Nl). clear U Nl. revert bs' H' E.
  induction H as [|b bs Hb _ IH]; intros [|b' bs'] H' E; [constructor|discriminate..|]. apply Forall_cons in H' as [Hb' H']. cbn [map] in E.
  assert (E1 : words (branch_words (branch_line b)) = words (branch_words (branch_line b'))) by (apply (f_equal head) in E; cbn [head] in E; congruence).
  apply (f_equal tail) in E. cbn [tail] in E. constructor; [|by apply IH]. apply words_same. apply words_inj; [discriminate|discriminate| | |exact E1].
  - eapply Forall_impl; [by apply all_words|]. intros x [Hx _]. exact Hx.
  - eapply Forall_impl; [by apply all_words|]. intros x [Hx _]. exact Hx.
Qed.
Lemma text_of_branch b : branch_text (branch_line b) =
  B "[BR] " ++ br_name b ++ B " commits " ++ show_nat (length (br_commits b)) ++ B " first_commit " ++ br_first b ++
  match br_commits b with c :: _ => B " commits[0] " ++ c | [] => [] end ++ [NL].
Proof.
  unfold branch_text, println. rewrite join_words. unfold branch_words, branch_line. cbn [bi_name bi_commits bi_first bi_commit0]. change int_text with show_nat.
  change (B "[BR] ") with (B "[BR]" ++ [SP]). change (B " commits ") with ([SP] ++ B "commits" ++ [SP]). change (B " first_commit ") with ([SP] ++ B "first_commit" ++ [SP]).
  change (B " commits[0] ") with ([SP] ++ B "commits[0]" ++ [SP]). destruct (br_commits b) as [|c cs]; cbn [head]; rewrite ?app_nil_r; cbn [app words]; repeat (rewrite <-app_assoc; cbn [app]); reflexivity.
Qed.
