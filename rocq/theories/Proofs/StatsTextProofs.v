(** * The text of the statistics: proofs for C101 *)
From Verif.Model Require Import Base GoStrings IncBlame Timing CodeInfo Stats StatsText.
From Verif.Spec Require Import Text Processing Statistics StatsReport.
From Verif.Proofs Require Import TextLemmas.
From Coq Require Import Lia.

Lemma join_words l : join [SP] l = words l.
Proof. induction l as [|x [|y l] IH]; [reflexivity..|]. rewrite join_cons, IH. reflexivity. Qed.
Lemma println_unlines l : println l = unlines [words l].
Proof. unfold unlines, println. cbn [map concat]. rewrite app_nil_r, join_words. reflexivity. Qed.
Lemma unlines_map {A} (f : A -> list bytes) l : concat (map (fun c => println (f c)) l) = unlines (map (fun c => words (f c)) l).
Proof. induction l as [|x l IH]; [reflexivity|]. cbn [map concat]. rewrite IH, println_unlines. unfold unlines. cbn [map concat]. by rewrite app_nil_r. Qed.
Lemma slowest_total l : slowest_dur l = total (map t_dur l).
Proof.
  unfold slowest_dur. assert (H : forall a, foldl (fun s c => s + t_dur c)%Z a l = (a + total (map t_dur l))%Z); [|rewrite H; lia].
  induction l as [|x l IH]; intros a; cbn [foldl map total foldr]; [lia|]. rewrite IH. unfold total. lia.
Qed.
Lemma show_nat_inj a b : show_nat a = show_nat b -> a = b.
Proof. intros H. pose proof (atoi_show_nat a) as Ha. rewrite H, atoi_show_nat in Ha. injection Ha. lia. Qed.

Section Text.
Context (dt : Z -> bytes).
(** The lines of the text. *)
Definition lines (t : timing) (f : files_timing) : list bytes :=
  [ [];
    B "git processor timing";
    words [B "regular commits"; show_nat (tm_regular t)];
    words [B "time in regular commits"; dt (tm_regular_time t)];
    words [B "merges"; show_nat (tm_merges t)];
    words [B "time in merges commits"; dt (tm_merges_time t)];
    words [B "time in"; show_nat (length (tm_slowest t)); B "slowest commits"; dt (total (map t_dur (tm_slowest t)))];
    B "slowest commits" ] ++
  map (fun c => words [t_commit c; dt (t_dur c)]) (tm_slowest t) ++
  [ [];
    B "code info timing";
    words [B "files processed"; show_nat (ft_count f)];
    words [B "total time"; dt (ft_time f)];
    [] ].
Lemma output_lines s : output_stats dt (Ret tt) s = unlines (lines (sh_git s) (sh_files s)).
Proof.
  unfold output_stats, output_git_stats, output_files_stats, lines. rewrite unlines_map, !println_unlines, slowest_total, !unlines_app.
  change int_text with show_nat. unfold unlines. cbn [map concat]. rewrite ?app_nil_r, <-?app_assoc. reflexivity.
Qed.
Lemma report_of parents done t f : tells_about parents done t -> report dt parents done (ft_count f) (ft_time f) (output_stats dt (Ret tt) (Shown t f)).
Proof.
  intros (H1 & H2 & H3 & H4 & H5). exists (tm_slowest t). split; [exact H5|]. rewrite output_lines. unfold lines. cbn [sh_git sh_files].
  rewrite H1, H2, H3, H4. destruct H5 as (rest & _ & Hl & _). rewrite Hl, map_length. reflexivity.
Qed.

Hypothesis Hd : readable dt.
Lemma words_nl l : Forall no_nl l -> no_nl (words l).
Proof.
  induction l as [|x l IH]; intros H; [apply not_elem_of_nil|]. apply Forall_cons in H as [Hx Hl]. destruct l as [|y l]; [exact Hx|].
  change (words (x :: y :: l)) with (x ++ [SP] ++ words (y :: l)). apply no_nl_app; [exact Hx|]. apply no_nl_app; [by apply const_no_nl|]. by apply IH.
Qed.
Lemma nl_dur d : no_nl (dt d). Proof. apply Hd. Qed.
Lemma nl_nat n : no_nl (show_nat n). Proof. by apply show_nat_not_elem. Qed.
Lemma nl_lines t f : Forall (fun c => plain_id (t_commit c)) (tm_slowest t) -> Forall no_nl (lines t f).
Proof.
  intros H. unfold lines.
  assert (K : forall l, Forall no_nl l -> no_nl (words l)) by exact words_nl.
  assert (C : forall s, forallb (fun c => negb (bool_decide (c = NL))) (B s) = true -> no_nl (B s)) by (intros s; apply const_no_nl).
  assert (N0 : no_nl []) by apply not_elem_of_nil.
  apply Forall_app. split; [|apply Forall_app; split].
  - repeat (apply Forall_cons; split); try apply Forall_nil_2; try exact N0; try (apply C; reflexivity); apply K;
      repeat (apply Forall_cons; split); try apply Forall_nil_2; try apply nl_dur; try apply nl_nat; apply C; reflexivity.
  - apply Forall_map. eapply Forall_impl; [exact H|]. intros c [_ Hc]. apply K. apply Forall_cons. split; [exact Hc|]. apply Forall_cons. split; [apply nl_dur|apply Forall_nil_2; exact I].
  - repeat (apply Forall_cons; split); try apply Forall_nil_2; try exact N0; try (apply C; reflexivity); apply K;
      repeat (apply Forall_cons; split); try apply Forall_nil_2; try apply nl_dur; try apply nl_nat; apply C; reflexivity.
Qed.
Lemma id_dur_inj c c' d d' : SP ∉ c -> SP ∉ c' -> words [c; dt d] = words [c'; dt d'] -> c = c' /\ d = d'.
Proof.
  intros Hc Hc' H. cbn [words] in H. pose proof (split_char_cons SP c (dt d) Hc) as E. pose proof (split_char_cons SP c' (dt d') Hc') as E'.
  change (c ++ SP :: dt d = c' ++ SP :: dt d') in H. rewrite H, E' in E. rewrite (split_char_no _ (dt d)), (split_char_no _ (dt d')) in E by apply Hd. injection E as E1 E2. split; [done|]. symmetry. by apply Hd.
Qed.
Lemma slow_inj l l' : Forall (fun c => plain_id (t_commit c)) l -> Forall (fun c => plain_id (t_commit c)) l' ->
  map (fun c => words [t_commit c; dt (t_dur c)]) l = map (fun c => words [t_commit c; dt (t_dur c)]) l' -> l = l'.
Proof.
  intros H. revert l'. induction H as [|[c d] l [Hc _] _ IH]; intros [|[c' d'] l'] H' E; [reflexivity|discriminate..|].
  apply Forall_cons in H' as [[Hc' _] H']. cbn [map] in E. injection E as E1 E2. destruct (id_dur_inj c c' d d' Hc Hc') as [-> ->]; [exact E1|]. f_equal. by apply IH.
Qed.
Lemma text_inj s s' : Forall (fun c => plain_id (t_commit c)) (tm_slowest (sh_git s)) -> Forall (fun c => plain_id (t_commit c)) (tm_slowest (sh_git s')) ->
  output_stats dt (Ret tt) s = output_stats dt (Ret tt) s' -> s = s'.
Proof.
  destruct s as [[a b c d l] [n x]], s' as [[a' b' c' d' l'] [n' x']]. cbn [sh_git tm_slowest]. intros Hl Hl' E. rewrite !output_lines in E. cbn [sh_git sh_files] in E.
  apply (f_equal raw_lines) in E. rewrite !raw_lines_unlines in E by (by apply nl_lines). unfold lines in E. cbn [tm_regular tm_regular_time tm_merges tm_merges_time tm_slowest ft_count ft_time] in E.
  apply app_inj_1 in E as [E1 E]; [|reflexivity].
  assert (Hlen : length l = length l') by (apply (f_equal length) in E; rewrite !app_length, !map_length in E; cbn [length] in E; lia).
  apply app_inj_1 in E as [E2 E3]; [|by rewrite !map_length].
  apply slow_inj in E2; [|done..]. subst l'.
  apply (f_equal (fun l => (l !! 2, l !! 3, l !! 4, l !! 5))) in E1. apply (f_equal (fun l => (l !! 2, l !! 3))) in E3.
  cbn [lookup list_lookup words] in E1, E3. injection E1 as A1 A2 A3 A4. injection E3 as A5 A6.
  assert (P : forall (p q r : bytes), p ++ q = p ++ r -> q = r) by (intros p q r; apply app_inv_head).
  apply show_nat_inj in A1, A3, A5. apply Hd in A2, A4, A6. congruence.
Qed.
End Text.
