(** Consequences of [log_run_render] in the form of the property file. *)
From Verif.Model Require Import Base GoStrings IncBlame LogParser.
From Verif.Spec Require Import Text UnifiedDiff Attribution GitLog.
From Verif.Proofs Require Import TextLemmas HunkHeader ParsePatch ApplyPatch MergeBlame LogParse.
From Coq Require Import Lia.

Lemma map_drop_cr_trimmed ls : Forall2 cr_trimmed ls (map drop_cr ls).
Proof. induction ls; cbn; constructor; [apply drop_cr_trimmed|done]. Qed.
Lemma map_drop_cr_id ls : Forall no_trailing_cr ls -> map drop_cr ls = ls.
Proof. induction 1 as [|l ls Hl _ IH]; cbn; [done|]. by rewrite drop_cr_no_cr, IH. Qed.

Lemma log_recovered es :
  Forall wf_entry es -> short_lines (log_lines es) ->
  exists cs, log_run (render_log es) = (cs, Ret tt) /\
    Forall2 (fun e c =>
      lc_hash c = le_hash e /\ lc_from c = default [] (le_from e) /\
      Forall2 (fun p t => exists ls, t = unlines ls /\ Forall2 cr_trimmed (patch_lines p) ls /\
                          (Forall no_trailing_cr (patch_lines p) -> t = render_patch p))
              (le_patches e) (lc_changes c)) es cs.
Proof.
  intros H Hs. exists (map commit_of es). split; [by apply log_run_render|]. clear H Hs.
  induction es as [|e es IH]; cbn [map]; constructor; [|done]. split_and!; [done|done|].
  cbn [commit_of lc_changes]. induction (le_patches e) as [|p ps IHp]; cbn [map]; constructor; [|done].
  exists (map drop_cr (patch_lines p)). split_and!; [done|apply map_drop_cr_trimmed|].
  intros Hc. unfold change_text, render_patch. by rewrite map_drop_cr_id.
Qed.

Lemma log_lines_entry es e l : e ∈ es -> l ∈ entry_lines e -> l ∈ log_lines es.
Proof.
  intros He Hl. induction es as [|e' es IH]; [by apply elem_of_nil in He|].
  destruct es as [|e2 es].
  - apply elem_of_list_singleton in He as ->. exact Hl.
  - change (log_lines (e' :: e2 :: es)) with (entry_lines e' ++ [[]] ++ log_lines (e2 :: es)).
    apply elem_of_cons in He as [->|He]; apply elem_of_app; [by left|right]. apply elem_of_app. right. by apply IH.
Qed.
Lemma entry_patch_lines e p l : p ∈ le_patches e -> l ∈ patch_lines p -> l ∈ entry_lines e.
Proof.
  intros Hp Hl. unfold entry_lines. apply elem_of_cons. right. repeat (apply elem_of_app; right).
  apply elem_of_list_In, in_concat. exists (patch_lines p). split; apply elem_of_list_In; [|done]. by apply elem_of_list_fmap_1.
Qed.

Lemma changes_usable es cs i e c j p t :
  Forall wf_entry es -> short_lines (log_lines es) -> log_run (render_log es) = (cs, Ret tt) ->
  es !! i = Some e -> cs !! i = Some c -> le_patches e !! j = Some p -> lc_changes c !! j = Some t ->
  exists d, parse t = Ret d /\
    d_prev d = name_before (fp_kind p) /\ d_path d = name_after (fp_kind p) /\ d_binary d = is_binary_body (fp_body p) /\
    forall hs tail file commit k,
      fp_body p = FBText hs -> (forall q m, fp_kind p <> FDelete q m) -> 2 <= k -> has_context k 0 true hs ->
      b_binary file = false -> length (b_lines file) = length (old_text (script hs tail)) ->
      exists b, apply file d commit = Ret b /\ b_commit b = commit /\
        attributed cr_trimmed commit (script hs tail) (b_lines file) (b_lines b).
Proof.
  intros H Hs Hr He Hc Hp Ht. rewrite log_run_render in Hr by done. assert (cs = map commit_of es) as -> by congruence.
  change (map commit_of es) with (commit_of <$> es) in Hc. rewrite list_lookup_fmap, He in Hc. cbn in Hc. 
  assert (c = commit_of e) as -> by congruence. clear Hc.
  cbn [commit_of lc_changes] in Ht. change (map change_text ?x) with (change_text <$> x) in Ht.
  rewrite list_lookup_fmap, Hp in Ht. cbn [fmap option_fmap option_map] in Ht. assert (t = change_text p) as -> by congruence. clear Ht.
  assert (Hw : wf_patch p).
  { rewrite Forall_forall in H. specialize (H e). destruct H as (_&_&_&_&_&Hw); [by eapply elem_of_list_lookup_2|].
    rewrite Forall_forall in Hw. apply Hw. by eapply elem_of_list_lookup_2. }
  assert (Hsp : short_lines (patch_lines p)).
  { unfold short_lines in *. rewrite Forall_forall in *. intros l Hl. apply Hs. eapply log_lines_entry; [by eapply elem_of_list_lookup_2|].
    eapply entry_patch_lines; [by eapply elem_of_list_lookup_2|done]. }
  destruct (change_names p Hw Hsp) as (d & D1 & D2 & D3 & D4). exists d. split_and!; try done.
  intros hs tail file commit k Hb Hd Hk Hctx Hbin Hl.
  destruct (change_applies p hs tail file commit k Hw Hsp Hb Hd Hk Hctx Hbin Hl) as (d' & b & E1 & E2 & E3 & _ & E5).
  rewrite D1 in E1. assert (d' = d) as -> by congruence. by exists b.
Qed.

Lemma log_run_all_short d cs :
  log_run d = (cs, Ret tt) -> Forall (fun l => (N.of_nat (length l) < 100000000)%N) (raw_lines d).
Proof.
  intros H. apply Forall_forall. intros l Hl. destruct (N.ltb_spec (N.of_nat (length l)) 100000000) as [|Hlong]; [done|].
  exfalso. apply (log_run_long d) with (cs := cs); [|exact H]. apply Exists_exists. by exists l.
Qed.

Lemma raw_lines_unlines_app ls rest : Forall no_nl ls -> raw_lines (unlines ls ++ rest) = ls ++ raw_lines rest.
Proof.
  induction 1 as [|l ls Hl _ IH]; [done|]. rewrite unlines_cons, <-!app_assoc.
  rewrite raw_lines_line by done. by rewrite IH.
Qed.
Lemma scan_raw_app_long max ls l r :
  Forall (fun l => (N.of_nat (length l) < max)%N) ls -> (max <= N.of_nat (length l))%N ->
  scan_raw max (ls ++ l :: r) = (map drop_cr ls, true).
Proof.
  intros H Hl. induction H as [|x ls Hx _ IH]; cbn [app scan_raw map].
  - by rewrite (proj2 (N.leb_le _ _) Hl).
  - destruct (N.leb_spec max (N.of_nat (length x))); [lia|]. by rewrite IH.
Qed.
Lemma log_run_long_err es l rest :
  Forall wf_entry es -> short_lines (log_lines es) -> no_nl l -> (100000000 <= N.of_nat (length l))%N ->
  exists cs e, log_run (render_log es ++ l ++ [NL] ++ rest) = (cs, Err e).
Proof.
  intros H Hs Hl Hlong. unfold log_run, scan, render_log. rewrite raw_lines_unlines_app by by apply log_no_nl.
  rewrite raw_lines_line by done. rewrite scan_raw_app_long by done.
  destruct es as [|e es]; [by eexists _, _|].
  destruct (run_log lp_init (e :: es)) as (s' & -> & A1 & A2); [done|by left|done|]. by eexists _, _.
Qed.
Lemma long_line_exists : exists l, no_nl l /\ (100000000 <= N.of_nat (length l))%N.
Proof.
  exists (replicate (N.to_nat 100000000) "x"%char). split.
  - unfold no_nl. intros H. apply elem_of_replicate_inv in H. done.
  - rewrite replicate_length. by rewrite N2Nat.id.
Qed.

Lemma decorated_is_merge h deco :
  commit_id h -> no_nl deco -> (N.of_nat (length deco) < 1000)%N -> (N.of_nat (length h) < 1000)%N -> 6 <= length deco ->
  exists f, f <> [] /\ log_run (unlines [B "commit " ++ h ++ B " (" ++ deco ++ B ")"; B "Author: a"; []; B "    s"]) = ([LCommit h f []], Ret tt).
Proof.
  intros [Hn Hh] Hd Hdl Hhl Hlen. unfold log_run.
  assert (Hhn : no_nl h) by by apply hex_not_elem.
  rewrite scan_unlines.
  2:{ repeat constructor; try by apply const_no_nl. repeat apply no_nl_app; try done; by apply const_no_nl. }
  2:{ repeat constructor; unfold max_line; try (cbn; lia). rewrite !app_length. cbn. lia. }
  cbn [map]. assert (drop_cr (B "commit " ++ h ++ B " (" ++ deco ++ B ")") = B "commit " ++ h ++ B " (" ++ deco ++ B ")") as ->.
  { rewrite !app_assoc. by rewrite drop_cr_app. }
  change (drop_cr (B "Author: a")) with (B "Author: a"). change (drop_cr []) with (@nil ascii). change (drop_cr (B "    s")) with (B "    s").
  cbn [lp_lines]. unfold lp_line at 1. cbn [lp_init lp_state]. unfold lp_commit_line. rewrite has_prefix_app. cbn [negb].
  rewrite drop_app_len. change (B " (" ++ deco ++ B ")") with (SP :: (B "(" ++ deco ++ B ")")).
  rewrite cut_char_some by by apply hex_not_elem.
  assert (Hl : length (B "(" ++ deco ++ B ")") = S (1 + length deco)) by (rewrite !app_length; cbn; lia).
  rewrite Hl. unfold slice. change (length (B "(from ")) with 6. rewrite Hl.
  assert (Nat.leb 6 (1 + length deco) && Nat.leb (1 + length deco) (S (1 + length deco)) = true) as ->.
  { apply andb_true_iff. split; apply Nat.leb_le; lia. }
  cbn [obind]. set (f := take _ _). exists f. split; [|done].
  intros Hf. apply (f_equal length) in Hf. unfold f in Hf. rewrite take_length, drop_length, Hl in Hf. cbn in Hf. lia.
Qed.
