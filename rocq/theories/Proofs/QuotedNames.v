(** Names git prints in double quotes. *)
From Verif.Model Require Import Base GoStrings IncBlame.
From Verif.Spec Require Import Text UnifiedDiff.
From Verif.Proofs Require Import TextLemmas HunkHeader ParsePatch.
From Coq Require Import Lia.

(** A name in git's quoted form: [q] is the escaped text between the quotes (C-style escapes, so no raw control
    characters; a double quote only occurs after a backslash). *)
Lemma escaped_no_nl q : forallb escaped_char q = true -> no_nl q.
Proof.
  intros H He. rewrite forallb_forall in H. apply elem_of_list_In in He. by specialize (H _ He).
Qed.
Lemma quoted_no_nl q : no_nl q -> no_nl (quoted q).
Proof. intros H. unfold quoted, no_nl. rewrite not_elem_of_cons, not_elem_of_app. split_and!; [done|done|set_solver]. Qed.
Lemma quoted_drop_cr s q : drop_cr (s ++ quoted q) = s ++ quoted q.
Proof. unfold quoted. rewrite drop_cr_app by done. f_equal. change (QUOTE :: q ++ [QUOTE]) with ((QUOTE :: q) ++ [QUOTE]). by rewrite drop_cr_snoc. Qed.

Lemma rem_prefix_quoted (c : ascii) q :
  q <> [] -> rem_prefix (quoted (c :: "/"%char :: q)) [c; "/"%char] = Some q.
Proof.
  intros Hq. unfold rem_prefix, quoted. cbv beta iota zeta.
  rewrite !rev_app_distr. cbn [rev app]. rewrite !bool_decide_eq_true_2 by done. cbn [andb].
  replace (rev ((rev q ++ ["/"%char]) ++ [c])) with (c :: "/"%char :: q).
  2:{ rewrite !rev_app_distr. cbn. by rewrite rev_involutive. }
  destruct q as [|x q]; [done|]. cbn [length Nat.leb orb has_prefix].
  by rewrite !bool_decide_eq_true_2.
Qed.

Definition qdata (q q' : bytes) : bytes := quoted (B "a/" ++ q) ++ SP :: quoted (B "b/" ++ q').

Lemma count_sp_quoted p q : SP ∉ p -> count_byte SP (quoted (p ++ q)) = count_byte SP q.
Proof.
  intros Hp. unfold quoted. cbn [count_byte]. rewrite bool_decide_eq_false_2 by done. rewrite !count_byte_app.
  apply count_byte_0 in Hp. rewrite Hp. change (count_byte SP [QUOTE]) with 0. lia.
Qed.
Lemma count_sp_qdata q q' : count_byte SP (qdata q q') = 1 + count_byte SP q + count_byte SP q'.
Proof.
  unfold qdata. rewrite count_byte_app. cbn [count_byte]. rewrite bool_decide_eq_true_2 by done.
  rewrite !count_sp_quoted; [lia|cbn; set_solver..].
Qed.

Lemma quoted_decl_no_space q q' :
  q <> [] -> q' <> [] -> SP ∉ q -> SP ∉ q' ->
  parse_diff_decl (diff_decl_prefix_normal ++ qdata q q') = DeclOk q q'.
Proof.
  intros Hq Hq' Hs Hs'. unfold parse_diff_decl.
  destruct (diff_decl_prefix_normal ++ qdata q q') as [|x y] eqn:He; [done|]. rewrite <-He. clear x y He.
  rewrite has_prefix_app. cbn [negb]. rewrite drop_app_len.
  assert (Hc : count_byte SP (qdata q q') = 1).
  { rewrite count_sp_qdata. apply count_byte_0 in Hs, Hs'. lia. }
  rewrite Hc. cbn [Nat.eqb]. unfold qdata. rewrite index_byte_app.
  2:{ apply count_byte_0. rewrite count_sp_quoted by (cbn; set_solver). by apply count_byte_0. }
  destruct (length (quoted (B "a/" ++ q))) as [|i] eqn:E; [done|]. rewrite <-E. rewrite take_app.
  change (B "a/" ++ q) with ("a"%char :: "/"%char :: q) at 1. change (B "a/") with ["a"%char; "/"%char] at 1.
  rewrite rem_prefix_quoted by done.
  replace (drop (S (length (quoted (B "a/" ++ q)))) (quoted (B "a/" ++ q) ++ SP :: quoted (B "b/" ++ q')))
    with (quoted (B "b/" ++ q')); [|symmetry].
  - change (B "b/" ++ q') with ("b"%char :: "/"%char :: q'). change (B "b/") with ["b"%char; "/"%char].
    by rewrite rem_prefix_quoted.
  - change (SP :: quoted (B "b/" ++ q')) with ([SP] ++ quoted (B "b/" ++ q')). rewrite app_assoc.
    rewrite drop_app_alt; [done|]. rewrite app_length. cbn. lia.
Qed.

Lemma quoted_decl_space q q' :
  0 < count_byte SP q + count_byte SP q' ->
  parse_diff_decl (diff_decl_prefix_normal ++ qdata q q') = DeclRenameWithSpaces.
Proof.
  intros Hs. unfold parse_diff_decl.
  destruct (diff_decl_prefix_normal ++ qdata q q') as [|x y] eqn:He; [done|]. rewrite <-He. clear x y He.
  rewrite has_prefix_app. cbn [negb]. rewrite drop_app_len. rewrite count_sp_qdata.
  destruct (Nat.eqb_spec (1 + count_byte SP q + count_byte SP q') 0); [lia|].
  destruct (Nat.eqb_spec (1 + count_byte SP q + count_byte SP q') 1); [lia|].
  cbv zeta.
  assert (beq (take 2 (qdata q q')) (B "a/") = false) as -> by done.
  cbn [negb]. by rewrite orb_true_r.
Qed.

Lemma quoted_length q : length (quoted q) = length q + 2.
Proof. unfold quoted. cbn [length]. rewrite app_length. cbn. lia. Qed.
Lemma qdata_length q q' : length (qdata q q') = length q + length q' + 9.
Proof. unfold qdata. rewrite app_length. cbn [length]. rewrite !quoted_length, !app_length. cbn. lia. Qed.


Lemma parse_quoted_mode_change q :
  escaped_name q -> short_name q ->
  parse (quoted_mode_change q) =
    Ret (if bool_decide (SP ∈ q) then Diff [] [] false [] else Diff q q false []).
Proof.
  intros [Hq Hc] Hsh. unfold parse.
  destruct (quoted_mode_change q) as [|c0 r0] eqn:Hr; [done|]. rewrite <-Hr. clear c0 r0 Hr.
  unfold quoted_mode_change.
  assert (Hd : B "diff --git " ++ quoted (B "a/" ++ q) ++ B " " ++ quoted (B "b/" ++ q) = diff_decl_prefix_normal ++ qdata q q) by done.
  rewrite Hd. rewrite scan_unlines.
  2:{ constructor; [|repeat constructor; by apply const_no_nl].
      unfold no_nl. rewrite not_elem_of_app. split; [by apply const_no_nl|].
      unfold qdata. rewrite not_elem_of_app, not_elem_of_cons. pose proof (escaped_no_nl q Hc) as Hnl. unfold no_nl in Hnl.
      split_and!; [apply quoted_no_nl, no_nl_app; [by apply const_no_nl|done]|done|apply quoted_no_nl, no_nl_app; [by apply const_no_nl|done]]. }
  2:{ unfold short_name in Hsh. constructor; [|repeat constructor; done].
      rewrite app_length, qdata_length. unfold max_line. cbn. lia. }
  cbn [map].
  assert (drop_cr (diff_decl_prefix_normal ++ qdata q q) = diff_decl_prefix_normal ++ qdata q q) as ->.
  { unfold qdata. change (SP :: quoted (B "b/" ++ q)) with (B " " ++ quoted (B "b/" ++ q)). rewrite !app_assoc. apply quoted_drop_cr. }
  change (drop_cr (B "old mode 100644")) with (B "old mode 100644").
  change (drop_cr (B "new mode 100755")) with (B "new mode 100755").
  cbn [ofold]. unfold p_line at 1. cbn [p_state parser_init].
  case_bool_decide as Hs.
  - rewrite quoted_decl_space; [done|]. destruct (count_byte SP q) eqn:E; [|lia]. by apply count_byte_0 in E.
  - by rewrite quoted_decl_no_space.
Qed.

Lemma parse_quoted_rename q q' :
  escaped_name q -> escaped_name q' -> short_name q -> short_name q' ->
  parse (quoted_rename q q') = Ret (Diff (quoted q) (quoted q') false []).
Proof.
  intros [Hq Hc] [Hq' Hc'] Hsh Hsh'. unfold parse.
  destruct (quoted_rename q q') as [|c0 r0] eqn:Hr; [done|]. rewrite <-Hr. clear c0 r0 Hr.
  unfold quoted_rename.
  assert (Hd : B "diff --git " ++ quoted (B "a/" ++ q) ++ B " " ++ quoted (B "b/" ++ q') = diff_decl_prefix_normal ++ qdata q q') by done.
  rewrite Hd.
  pose proof (escaped_no_nl q Hc) as Hnl. pose proof (escaped_no_nl q' Hc') as Hnl'.
  rewrite scan_unlines.
  2:{ unfold no_nl in *. repeat constructor.
      - rewrite not_elem_of_app. split; [by apply const_no_nl|].
        unfold qdata. rewrite not_elem_of_app, not_elem_of_cons.
        split_and!; [apply quoted_no_nl, no_nl_app; [by apply const_no_nl|done]|done|apply quoted_no_nl, no_nl_app; [by apply const_no_nl|done]].
      - by apply const_no_nl.
      - rewrite not_elem_of_app. split; [by apply const_no_nl|by apply quoted_no_nl].
      - rewrite not_elem_of_app. split; [by apply const_no_nl|by apply quoted_no_nl]. }
  2:{ unfold short_name, max_line in *. repeat constructor;
      rewrite ?app_length, ?qdata_length, ?quoted_length; cbn; lia. }
  cbn [map].
  assert (drop_cr (diff_decl_prefix_normal ++ qdata q q') = diff_decl_prefix_normal ++ qdata q q') as ->.
  { unfold qdata. change (SP :: quoted (B "b/" ++ q')) with (B " " ++ quoted (B "b/" ++ q')). rewrite !app_assoc. apply quoted_drop_cr. }
  change (drop_cr (B "similarity index 100%")) with (B "similarity index 100%").
  rewrite !quoted_drop_cr.
  cbn [ofold]. unfold p_line at 1. cbn [p_state parser_init].
  assert (Hx : forall f t, (do p <- (do s' <- Ret (pre f t ∅);
       do s'0 <- p_line s' (B "similarity index 100%");
       do s'1 <- p_line s'0 (B "rename from " ++ quoted q);
       do s'2 <- p_line s'1 (B "rename to " ++ quoted q'); Ret s'2); finish_parse p)
       = Ret (Diff (quoted q) (quoted q') false [])).
  { intros f t. cbn [obind]. rewrite meta_line by done. cbn [obind]. rewrite meta_line by done. cbn [obind].
    rewrite meta_line by done. cbn [obind]. rewrite (add_meta_none ∅ (B "similarity index 100%")) by (repeat constructor; done).
    change (add_meta ∅ (B "rename from " ++ quoted q)) with ({[ meta_rename_from := quoted q ]} : gmap bytes bytes).
    change (add_meta {[meta_rename_from := quoted q]} (B "rename to " ++ quoted q'))
      with (<[ meta_rename_to := quoted q' ]> {[ meta_rename_from := quoted q ]} : gmap bytes bytes).
    unfold finish_parse. cbn [finish_hunk p_meta p_ctx p_res pre p_prev p_path].
    unfold get_meta. rewrite lookup_insert. rewrite !lookup_insert_ne by done. rewrite lookup_singleton.
    rewrite !lookup_singleton_ne by done. done. }
  destruct (Nat.eq_dec (count_byte SP q + count_byte SP q') 0) as [Hs|Hs].
  - rewrite quoted_decl_no_space; [apply Hx|done|done|apply count_byte_0; lia|apply count_byte_0; lia].
  - rewrite quoted_decl_space by lia. apply Hx.
Qed.
