(** Parsing the patch log git prints. *)
From Verif.Model Require Import Base GoStrings IncBlame LogParser.
From Verif.Spec Require Import Text UnifiedDiff Attribution GitLog.
From Verif.Proofs Require Import TextLemmas HunkHeader ParsePatch ApplyPatch MergeBlame.
From Coq Require Import Lia.

(** ** Lines of a patch after the first continue the diff. *)
Definition cont_line (l : bytes) : Prop := l <> [] /\ is_diff_start l = false.

Lemma cont_first c r : c <> CR -> c <> "d"%char -> cont_line (drop_cr (c :: r)).
Proof.
  intros H1 H2. rewrite drop_cr_prefix_c by done. split; [done|]. unfold is_diff_start.
  apply andb_false_iff. right. apply bool_decide_eq_false. cbn. intros [= ? _]. done.
Qed.
Lemma cont_deleted r : cont_line (drop_cr (B "deleted file mode " ++ r)).
Proof.
  change (B "deleted file mode " ++ r) with (B "de" ++ B "leted file mode " ++ r). rewrite drop_cr_app by done.
  split; [done|]. unfold is_diff_start. apply andb_false_iff. right. apply bool_decide_eq_false. cbn. intros [= _]. 
Qed.

Lemma cont_edit e : cont_line (drop_cr (edit_line e)).
Proof. destruct e; apply cont_first; done. Qed.
Lemma cont_hunks o n hs : Forall cont_line (map drop_cr (hunks_lines o n hs)).
Proof.
  revert o n. induction hs as [|h hs IH]; intros o n; [constructor|]. cbn [hunks_lines]. cbv zeta. cbn [map].
  constructor; [by apply cont_first|]. rewrite map_app. apply Forall_app_2; [|apply IH].
  unfold body_lines. induction (sh_body h) as [|[e b] body IHb]; [constructor|]. cbn [map concat]. rewrite map_app.
  apply Forall_app_2; [|done]. cbn [body_line fst snd map]. constructor; [apply cont_edit|]. destruct b; [|constructor].
  constructor; [|constructor]. by apply cont_first.
Qed.
Lemma cont_patch p : Forall cont_line (map drop_cr (tail (patch_lines p))).
Proof.
  unfold patch_lines. cbn [tail]. rewrite !map_app. repeat apply Forall_app_2.
  - assert (Hm : forall m, Forall cont_line (map drop_cr (mode_lines m))).
    { intros [[a b]|]; [|constructor]. repeat constructor; by apply cont_first. }
    destruct (fp_kind p); cbn [header_lines]; rewrite ?map_app; try apply Hm.
    + repeat constructor. by apply cont_first.
    + repeat constructor. apply cont_deleted.
    + apply Forall_app_2; [apply Hm|]. repeat constructor; by apply cont_first.
  - destruct (fp_index p); [|constructor]. repeat constructor. by apply cont_first.
  - destruct (fp_body p); cbn [fbody_lines]; [constructor|repeat constructor; by apply cont_first|].
    cbn [map]. repeat (constructor; [by apply cont_first|]). apply cont_hunks.
Qed.

Lemma decl_diff_start o n :
  is_diff_start (drop_cr (B "diff --git a/" ++ o ++ B " b/" ++ n)) = true /\
  drop_cr (B "diff --git a/" ++ o ++ B " b/" ++ n) = "d"%char :: tail (drop_cr (B "diff --git a/" ++ o ++ B " b/" ++ n)).
Proof.
  change (B "diff --git a/" ++ o ++ B " b/" ++ n) with (B "diff-"%string ++ B "x" ++ o) || idtac.
  assert (H : exists r, drop_cr (B "diff --git a/" ++ o ++ B " b/" ++ n) = B "diff " ++ r).
  { change (B "diff --git a/" ++ o ++ B " b/" ++ n) with (B "diff " ++ (B "--git a/" ++ o ++ B " b/" ++ n)).
    rewrite drop_cr_app by done. by eexists. }
  destruct H as [r ->]. split; [|done]. unfold is_diff_start. apply andb_true_iff. split; [|done]. by apply Nat.ltb_lt; cbn; lia.
Qed.

(** ** Running *)
Lemma lp_lines_app s l1 l2 :
  lp_lines s (l1 ++ l2) = match lp_lines s l1 with (s', Ret _) => lp_lines s' l2 | x => x end.
Proof.
  revert s. induction l1 as [|l l1 IH]; intros s; [done|]. cbn. destruct (lp_line s l); [apply IH|done|done].
Qed.

Lemma run_cont s ls : lp_state s = LInDiff -> Forall cont_line ls ->
  lp_lines s ls = (LParser (lp_out s) (lp_commit s) LInDiff (lp_diff s ++ unlines ls), Ret tt).
Proof.
  intros Hs H. revert s Hs. induction H as [|l ls [Hl1 Hl2] _ IH]; intros s Hs.
  - cbn. rewrite app_nil_r. destruct s; cbn in *; by subst.
  - cbn [lp_lines]. unfold lp_line. rewrite Hs. destruct l as [|c l]; [done|]. rewrite Hl2.
    rewrite IH by done. cbn [lp_out lp_commit lp_diff]. do 2 f_equal. rewrite unlines_cons, <-!app_assoc. done.
Qed.

(** Changes once a diff in progress is closed. *)
Definition closed_changes (s : lparser) : list bytes :=
  match lp_state s with LInDiff => lc_changes (lp_commit s) ++ [lp_diff s] | _ => lc_changes (lp_commit s) end.

Lemma run_patch s p : lp_state s = LMsg \/ lp_state s = LInDiff ->
  exists s', lp_lines s (map drop_cr (patch_lines p)) = (s', Ret tt) /\ lp_state s' = LInDiff /\
    lp_out s' = lp_out s /\ lc_hash (lp_commit s') = lc_hash (lp_commit s) /\ lc_from (lp_commit s') = lc_from (lp_commit s) /\
    closed_changes s' = closed_changes s ++ [change_text p].
Proof.
  intros Hs. pose proof (cont_patch p) as Hc. unfold change_text.
  destruct (decl_diff_start (kind_old (fp_kind p)) (kind_new (fp_kind p))) as [H1 H2].
  unfold patch_lines in *. cbn [tail map] in *. set (d := drop_cr (B "diff --git a/" ++ _)) in *.
  set (ls := map drop_cr (header_lines _ ++ _)) in *. cbn [lp_lines].
  assert (exists s1, lp_line s d = Ret s1 /\ lp_state s1 = LInDiff /\ lp_diff s1 = d ++ [NL] /\ lp_out s1 = lp_out s /\
     lc_hash (lp_commit s1) = lc_hash (lp_commit s) /\ lc_from (lp_commit s1) = lc_from (lp_commit s) /\
     lc_changes (lp_commit s1) = closed_changes s) as (s1 & -> & Q1 & Q2 & Q3 & Q4 & Q5 & Q6).
  { unfold lp_line, closed_changes. destruct Hs as [->| ->]; rewrite H2; cbn [bool_decide]; rewrite <-H2, H1.
    - rewrite bool_decide_eq_false_2 by done. eexists. split; [done|]. done.
    - eexists. split; [done|]. done. }
  rewrite run_cont by done. eexists. split; [done|]. split; [done|]. cbn [lp_out lp_commit]. split_and!; try done.
  unfold closed_changes at 1. cbn [lp_state lp_commit lp_diff]. rewrite Q6, Q2. do 2 f_equal.
Qed.

Lemma run_patches s ps : lp_state s = LMsg \/ lp_state s = LInDiff ->
  exists s', lp_lines s (map drop_cr (concat (map patch_lines ps))) = (s', Ret tt) /\ (lp_state s' = LMsg \/ lp_state s' = LInDiff) /\
    lp_out s' = lp_out s /\ lc_hash (lp_commit s') = lc_hash (lp_commit s) /\ lc_from (lp_commit s') = lc_from (lp_commit s) /\
    closed_changes s' = closed_changes s ++ map change_text ps.
Proof.
  revert s. induction ps as [|p ps IH]; intros s Hs.
  - exists s. cbn. rewrite app_nil_r. done.
  - cbn [map concat]. rewrite map_app, lp_lines_app. destruct (run_patch s p Hs) as (s1 & -> & A1 & A2 & A3 & A4 & A5).
    destruct (IH s1) as (s2 & -> & B1 & B2 & B3 & B4 & B5); [by right|]. exists s2. split_and!; try congruence.
    rewrite B5, A5. cbn. by rewrite <-app_assoc.
Qed.

Lemma run_msg_skip s ls : lp_state s = LMsg -> Forall (fun l => l = [] \/ exists r, l = SP :: r) ls -> lp_lines s ls = (s, Ret tt).
Proof.
  intros Hs H. induction H as [|l ls Hl _ IH]; [done|]. cbn. unfold lp_line. rewrite Hs.
  destruct Hl as [->|[r ->]]; [done|]. rewrite bool_decide_eq_true_2 by done. done.
Qed.

(** What has been sent once the next commit line arrives. *)
Definition eff_out (s : lparser) : list lcommit :=
  match lp_state s with LMsg => lp_out s ++ [lp_commit s] | _ => lp_out s end.
Definition ready (s : lparser) : Prop := lp_state s = LNotStarted \/ lp_state s = LCommitNext \/ lp_state s = LMsg.

Lemma hex_not_elem c h : hex_char c = false -> forallb hex_char h = true -> c ∉ h.
Proof.
  intros Hc Hp He. rewrite forallb_forall in Hp. apply elem_of_list_In in He. rewrite Hp in Hc; done.
Qed.
Lemma cut_char_none c s : c ∉ s -> cut [c] s = None.
Proof.
  induction s as [|a s IH]; [done|]. intros H. apply not_elem_of_cons in H as [H1 H2]. cbn.
  rewrite bool_decide_eq_false_2 by congruence. cbn. by rewrite IH.
Qed.
Lemma cut_char_some c a b : c ∉ a -> cut [c] (a ++ c :: b) = Some (a, b).
Proof.
  induction a as [|x a IH]; intros H; cbn.
  - by rewrite bool_decide_eq_true_2.
  - apply not_elem_of_cons in H as [H1 H2]. rewrite bool_decide_eq_false_2 by congruence. cbn. by rewrite IH.
Qed.

Definition commit_line (e : log_entry) : bytes :=
  B "commit " ++ le_hash e ++ match le_from e with Some p => B " (from " ++ p ++ B ")" | None => [] end.

Lemma commit_line_parsed s e : commit_id (le_hash e) -> match le_from e with Some p => commit_id p | None => True end ->
  lp_commit_line s (commit_line e) =
  Ret (LParser (lp_out s) (LCommit (le_hash e) (default [] (le_from e)) []) LParentsNext (lp_diff s)).
Proof.
  intros [_ Hh] Hf. unfold lp_commit_line, commit_line. rewrite has_prefix_app. cbn [negb]. rewrite drop_app_len.
  assert (SP ∉ le_hash e) by (by apply hex_not_elem).
  destruct (le_from e) as [p|].
  - change (B " (from " ++ p ++ B ")") with (SP :: (B "(from " ++ p ++ B ")")). rewrite cut_char_some by done.
    assert (Hl : length (B "(from " ++ p ++ B ")") = S (6 + length p)) by (rewrite !app_length; cbn; lia).
    rewrite Hl. unfold slice. change (length (B "(from ")) with 6.
    assert (Nat.leb 6 (6 + length p) && Nat.leb (6 + length p) (length (B "(from " ++ p ++ B ")")) = true) as ->.
    { rewrite Hl. apply andb_true_iff. split; apply Nat.leb_le; lia. }
    cbn [obind]. replace (6 + length p - 6) with (length p) by lia.
    change (drop 6 (B "(from " ++ p ++ B ")")) with (p ++ B ")"). by rewrite take_app.
  - rewrite app_nil_r, cut_char_none; done.
Qed.

Lemma commit_line_cr e : commit_id (le_hash e) -> match le_from e with Some p => commit_id p | None => True end ->
  drop_cr (commit_line e) = commit_line e.
Proof.
  intros [Hn Hh] Hf. unfold commit_line. destruct (le_from e) as [p|].
  - rewrite drop_cr_app by (by destruct (le_hash e)). f_equal. rewrite drop_cr_app by done. f_equal.
    rewrite drop_cr_app by (by destruct p). f_equal. by rewrite drop_cr_app.
  - rewrite app_nil_r. rewrite drop_cr_app by done. f_equal. apply drop_cr_no_cr. intros u Hu. rewrite Hu in Hh.
    rewrite forallb_app in Hh. apply andb_true_iff in Hh as [_ Hh]. done.
Qed.

Lemma line_commit s e : ready s -> commit_id (le_hash e) -> match le_from e with Some p => commit_id p | None => True end ->
  exists d, lp_line s (commit_line e) = Ret (LParser (eff_out s) (LCommit (le_hash e) (default [] (le_from e)) []) LParentsNext d).
Proof.
  intros Hr Hh Hf. unfold lp_line, eff_out. destruct Hr as [Hs|[Hs|Hs]]; rewrite Hs.
  - rewrite commit_line_parsed by done. by eexists.
  - rewrite commit_line_parsed by done. by eexists.
  - pose proof (commit_line_parsed (lp_end_commit s) e Hh Hf) as HP.
    assert (Hd : is_diff_start (commit_line e) = false) by done.
    assert (Hpre : has_prefix (B "commit ") (commit_line e) = true) by apply has_prefix_app.
    assert (Hhd : head (commit_line e) = Some "c"%char) by done.
    destruct (commit_line e) as [|c l]; [done|]. cbn in Hhd. assert (c = "c"%char) as -> by congruence.
    rewrite bool_decide_eq_false_2 by done. rewrite Hd, Hpre, HP. unfold lp_end_commit. rewrite Hs. cbn. by eexists.
Qed.

Lemma run_entry s e : ready s -> wf_entry e ->
  exists s', lp_lines s (map drop_cr (entry_lines e)) = (s', Ret tt) /\ (lp_state s' = LMsg \/ lp_state s' = LInDiff) /\
    lp_out (lp_end_commit s') = eff_out s ++ [commit_of e].
Proof.
  intros Hr (Hh & Hf & Hm & Ha & Hsub & Hp). unfold entry_lines. fold (commit_line e). cbn [map]. rewrite commit_line_cr by done.
  cbn [lp_lines]. destruct (line_commit s e Hr Hh Hf) as [d ->].
  rewrite !map_app.
  set (s1 := LParser (eff_out s) (LCommit (le_hash e) (default [] (le_from e)) []) LParentsNext d).
  rewrite lp_lines_app.
  match goal with |- context[lp_lines s1 ?l] => assert (lp_lines s1 l = (s1, Ret tt)) as -> end.
  { destruct (le_merge e) as [m|]; [|done]. cbn [map lp_lines]. unfold lp_line. cbn [s1 lp_state].
    change (B "Merge: " ++ m) with (B "Merge:" ++ (SP :: m)). rewrite drop_cr_app by done.
    rewrite drop_cr_prefix_c by done. change (B "Merge:" ++ SP :: drop_cr m) with (B "Merge: " ++ drop_cr m).
    by rewrite has_prefix_app. }
  rewrite lp_lines_app.
  set (s2 := LParser (eff_out s) (LCommit (le_hash e) (default [] (le_from e)) []) LMsg d).
  match goal with |- context[lp_lines s1 ?l] => assert (lp_lines s1 l = (s2, Ret tt)) as -> end.
  { cbn [map lp_lines]. unfold lp_line at 1. cbn [s1 lp_state].
    change (B "Author: " ++ le_author e) with (B "Author:" ++ (SP :: le_author e)). rewrite drop_cr_app by done.
    assert (has_prefix (B "Merge: ") (B "Author:" ++ drop_cr (SP :: le_author e)) = false) as -> by done. done. }
  rewrite lp_lines_app, run_msg_skip; [|done|].
  2:{ apply Forall_fmap, Forall_fmap, Forall_forall. intros l _. cbn. right. destruct l; by eexists. }
  rewrite lp_lines_app, run_msg_skip; [|done|].
  2:{ induction (le_blank e); cbn; constructor; auto. }
  destruct (run_patches s2 (le_patches e)) as (s' & A0 & A1 & A2 & A3 & A4 & A5); [by left|].
  match goal with |- context[lp_lines s2 ?l] => assert (lp_lines s2 l = (s', Ret tt)) as -> by exact A0 end.
  exists s'. split_and!; [done..|]. unfold closed_changes in A5 at 2. cbn in A5.
  unfold lp_end_commit, closed_changes in *. destruct s' as [o [h f cs] st df]. cbn in *. subst.
  unfold commit_of. destruct A1 as [->| ->]; cbn in *; rewrite ?A5; [by rewrite <-A5|done].
Qed.

Lemma run_blank s : lp_state s = LMsg \/ lp_state s = LInDiff ->
  exists s', lp_line s [] = Ret s' /\ ready s' /\ eff_out s' = lp_out (lp_end_commit s).
Proof.
  intros [H|H]; unfold lp_line; rewrite H; eexists; (split; [done|]); unfold ready, eff_out; cbn; rewrite ?H; auto.
Qed.

Lemma run_log s es : es <> [] -> ready s -> Forall wf_entry es ->
  exists s', lp_lines s (map drop_cr (log_lines es)) = (s', Ret tt) /\ (lp_state s' = LMsg \/ lp_state s' = LInDiff) /\
    lp_out (lp_end_commit s') = eff_out s ++ map commit_of es.
Proof.
  intros Hn Hr H. revert s Hr Hn. induction H as [|e es He Hes IH]; intros s Hr Hn; [done|].
  destruct es as [|e2 es].
  - cbn [log_lines]. destruct (run_entry s e Hr He) as (s' & ? & ? & ?). exists s'. done.
  - change (log_lines (e :: e2 :: es)) with (entry_lines e ++ [[]] ++ log_lines (e2 :: es)).
    rewrite !map_app. rewrite lp_lines_app. destruct (run_entry s e Hr He) as (s1 & -> & A1 & A2).
    cbn [map app]. cbn [drop_cr lp_lines]. destruct (run_blank s1 A1) as (s2 & -> & B1 & B2).
    destruct (IH s2 B1) as (s' & C0 & C1 & C2); [done|]. exists s'. split_and!; try done.
    rewrite C2, B2, A2. cbn. by rewrite <-app_assoc.
Qed.

Lemma entry_no_nl e : wf_entry e -> Forall no_nl (entry_lines e).
Proof.
  intros (Hh & Hf & Hm & Ha & Hsub & Hp). unfold entry_lines. constructor.
  - apply no_nl_app; [by apply const_no_nl|]. apply no_nl_app; [by apply hex_not_elem, (proj2 Hh)|].
    destruct (le_from e) as [p|]; [|by apply const_no_nl].
    apply no_nl_app; [by apply const_no_nl|]. apply no_nl_app; [by apply hex_not_elem, (proj2 Hf)|by apply const_no_nl].
  - repeat apply Forall_app_2.
    + destruct (le_merge e); [|constructor]. repeat constructor. apply no_nl_app; [by apply const_no_nl|done].
    + repeat constructor; [|by apply const_no_nl]. apply no_nl_app; [by apply const_no_nl|done].
    + apply Forall_fmap. eapply Forall_impl; [exact Hsub|]. intros l Hl. apply no_nl_app; [by apply const_no_nl|done].
    + induction (le_blank e); cbn; constructor; [by apply const_no_nl|done].
    + clear -Hp. induction Hp as [|p ps Hp _ IH]; cbn [map concat]; [constructor|]. apply Forall_app_2; [by apply patch_lines_no_nl|done].
Qed.
Lemma log_no_nl es : Forall wf_entry es -> Forall no_nl (log_lines es).
Proof.
  induction 1 as [|e es He Hes IH]; [constructor|]. destruct es as [|e2 es]; [by apply entry_no_nl|].
  change (log_lines (e :: e2 :: es)) with (entry_lines e ++ [[]] ++ log_lines (e2 :: es)).
  apply Forall_app_2; [by apply entry_no_nl|]. apply Forall_app_2; [|done]. repeat constructor. by apply const_no_nl.
Qed.

Lemma log_run_render es : Forall wf_entry es -> short_lines (log_lines es) ->
  log_run (render_log es) = (map commit_of es, Ret tt).
Proof.
  intros H Hs. unfold log_run, render_log. rewrite scan_unlines; [|by apply log_no_nl|exact Hs].
  destruct es as [|e es]; [done|].
  destruct (run_log lp_init (e :: es)) as (s' & -> & A1 & A2); [done|by left|done|].
  unfold eff_out in A2. cbn [lp_init lp_state lp_out app] in A2.
  destruct A1 as [A1|A1]; rewrite A1, A2; done.
Qed.

(** ** The text of a change is again a patch git could have printed, minus trailing carriage returns. *)
Definition strip_edit (e : edit) : edit :=
  match e with Keep l => Keep (drop_cr l) | Del l => Del (drop_cr l) | Add l => Add (drop_cr l) end.
Definition strip_hunk (h : shunk) : shunk :=
  SHunk (sh_gap h) (map (fun x => (strip_edit (fst x), snd x)) (sh_body h)) (drop_cr (sh_heading h)).
Definition strip_body (b : fbody) : fbody := match b with FBText hs => FBText (map strip_hunk hs) | x => x end.
Definition strip_patch (p : fpatch) : fpatch := FPatch (fp_kind p) (fp_index p) (strip_body (fp_body p)).

Lemma strip_edit_line e : drop_cr (edit_line e) = edit_line (strip_edit e).
Proof. destruct e; cbn [edit_line strip_edit]; change (B ?s ++ ?l) with (list_ascii_of_string s ++ l); cbn [list_ascii_of_string app]; by rewrite drop_cr_prefix_c. Qed.
Lemma strip_counts h : old_count (strip_hunk h) = old_count h /\ new_count (strip_hunk h) = new_count h.
Proof.
  unfold old_count, new_count, strip_hunk. cbn [sh_body]. rewrite map_map. cbn [fst].
  induction (sh_body h) as [|[[l|l|l] b] r [IH1 IH2]]; cbn; split; lia.
Qed.
Lemma strip_body_lines b : map drop_cr (body_lines b) = body_lines (map (fun x => (strip_edit (fst x), snd x)) b).
Proof.
  unfold body_lines. induction b as [|[e m] b IH]; [done|]. cbn [map concat]. rewrite map_app, IH. f_equal.
  unfold body_line. cbn [fst snd map]. rewrite strip_edit_line. by destruct m.
Qed.
Lemma strip_hunks_lines o n hs : map drop_cr (hunks_lines o n hs) = hunks_lines o n (map strip_hunk hs).
Proof.
  revert o n. induction hs as [|h hs IH]; intros o n; [done|]. cbn [hunks_lines map]. cbv zeta.
  destruct (strip_counts h) as [-> ->]. cbn [strip_hunk sh_gap sh_body sh_heading map]. rewrite map_app, strip_body_lines, IH.
  f_equal. apply drop_cr_header.
Qed.
Lemma plain_side k : wf_kind k -> (old_side k <> [] /\ forallb plain_char (old_side k) = true) /\
  (new_side k <> [] /\ forallb plain_char (new_side k) = true).
Proof.
  intros H. destruct k; cbn [wf_kind plain_path] in H; cbn [old_side new_side kind_old kind_new]; unfold plain_path in *;
    split_and!; try done; rewrite forallb_app; apply andb_true_iff; split; naive_solver.
Qed.
Lemma tabbed_cr (s t : bytes) : t <> [] -> forallb plain_char t = true -> drop_cr (s ++ tabbed t) = s ++ tabbed t.
Proof.
  intros H1 H2. unfold tabbed. destruct (existsb _ _).
  - rewrite app_assoc. by rewrite drop_cr_app.
  - rewrite app_nil_r. by apply const_drop_cr.
Qed.
Lemma strip_patch_lines p : wf_patch p -> map drop_cr (patch_lines p) = patch_lines (strip_patch p).
Proof.
  intros (Hk & Hi & Hb). unfold patch_lines. cbn [strip_patch fp_kind fp_index fp_body map]. f_equal; [|rewrite !map_app; f_equal; [|f_equal]].
  - rewrite !app_assoc. destruct (fp_kind p); cbn [wf_kind kind_old kind_new] in *; apply const_drop_cr; unfold plain_path in *; naive_solver.
  - assert (HM : forall m, wf_modes m -> map drop_cr (mode_lines m) = mode_lines m).
    { intros [[a b]|] Hm; [|done]. destruct Hm as [[Ha1 Ha2] [Hb1 Hb2]]. cbn [mode_lines map].
      rewrite !const_drop_cr; auto using word_plain. }
    destruct (fp_kind p); cbn [wf_kind header_lines] in *; unfold plain_path, word in *.
    + apply HM. naive_solver.
    + cbn [map]. rewrite const_drop_cr; [done|naive_solver|]. apply word_plain. naive_solver.
    + cbn [map]. rewrite const_drop_cr; [done|naive_solver|]. apply word_plain. naive_solver.
    + rewrite map_app. rewrite HM by naive_solver. f_equal. cbn [map].
      destruct Hk as ((?&?)&(?&?)&_&(?&?)&_). rewrite !const_drop_cr; auto using word_plain.
  - destruct (fp_index p) as [i|]; [|done]. cbn [map]. f_equal. destruct i as [|c i]; [done|]. by apply const_drop_cr.
  - destruct (plain_side _ Hk) as [[? ?] [? ?]]. destruct (fp_body p) as [| |hs]; cbn [fbody_lines strip_body map]; [done| |].
    + f_equal. rewrite !app_assoc. by rewrite drop_cr_app.
    + rewrite !tabbed_cr, strip_hunks_lines by done. done.
Qed.

Lemma strip_edit_text e : edit_text (strip_edit e) = drop_cr (edit_text e).
Proof. by destruct e. Qed.
Lemma strip_wf p : wf_patch p -> wf_patch (strip_patch p).
Proof.
  intros (Hk & Hi & Hb). split_and!; [done|done|]. cbn [strip_patch fp_body]. destruct (fp_body p) as [| |hs]; cbn in *; [done|done|].
  destruct Hb as [Hn Hb]. split; [by destruct hs|]. apply Forall_fmap. eapply Forall_impl; [exact Hb|].
  intros h [H1 H2]. split; cbn; [by apply drop_cr_no_nl|]. apply Forall_fmap. eapply Forall_impl; [exact H2|].
  intros [e b] He. cbn in *. rewrite strip_edit_text. by apply drop_cr_no_nl.
Qed.
Lemma strip_short p : wf_patch p -> short_lines (patch_lines p) -> short_lines (patch_lines (strip_patch p)).
Proof.
  intros Hw H. rewrite <-strip_patch_lines by done. unfold short_lines in *. apply Forall_fmap. eapply Forall_impl; [exact H|].
  cbn. intros l Hl. pose proof (drop_cr_length l). lia.
Qed.
Lemma strip_context k o b hs : has_context k o b hs -> has_context k o b (map strip_hunk hs).
Proof.
  revert o b. induction hs as [|h hs IH]; intros o b H; [done|]. cbn [has_context map] in *.
  destruct (strip_counts h) as [-> _]. cbn [strip_hunk sh_gap sh_body]. destruct H as (H1 & H2 & H3). split_and!; [done| |by apply IH].
  destruct H2 as [H2|(ctx & rest & Hl & Hb)]; [by left|right].
  exists (map drop_cr ctx), (map (fun x => (strip_edit (fst x), snd x)) rest). rewrite map_length. split; [done|].
  rewrite Hb, map_app. f_equal. rewrite !map_map. done.
Qed.

(** Scripts that differ in carriage returns only. *)
Inductive edit_cr : edit -> edit -> Prop :=
| ec_keep a b : cr_trimmed a b -> edit_cr (Keep a) (Keep b)
| ec_del a b : cr_trimmed a b -> edit_cr (Del a) (Del b)
| ec_add a b : cr_trimmed a b -> edit_cr (Add a) (Add b).
Lemma strip_script hs tail : Forall2 edit_cr (script hs tail) (script (map strip_hunk hs) tail).
Proof.
  unfold script. apply Forall2_app.
  - induction hs as [|h hs IH]; [constructor|]. cbn [map concat]. apply Forall2_app; [|done].
    unfold hunk_script. cbn [strip_hunk sh_gap sh_body]. apply Forall2_app.
    + induction (sh_gap h); cbn; constructor; [|done]. constructor. apply cr_trimmed_refl.
    + rewrite map_map. induction (sh_body h) as [|[[l|l|l] b] r IHr]; cbn; constructor; try done; constructor; apply drop_cr_trimmed.
  - induction tail; cbn; constructor; [|done]. constructor. apply cr_trimmed_refl.
Qed.
Lemma edit_cr_old es es' : Forall2 edit_cr es es' -> Forall2 cr_trimmed (old_text es) (old_text es').
Proof. induction 1 as [|e e' es es' He _ IH]; cbn; [constructor|]. destruct He; [constructor| constructor|]; done. Qed.
Lemma edit_cr_attributed c es es' old new :
  Forall2 edit_cr es es' -> attributed cr_trimmed c es' old new -> attributed cr_trimmed c es old new.
Proof.
  intros H Ha. revert es H. induction Ha as [|t l es' old new _ IH|t l es' old new _ IH|t t' es' old new Ht _ IH]; intros es H.
  - inversion H; subst. constructor.
  - inversion H as [|e ? es0 ? He Hes]; subst. inversion He; subst. constructor. auto.
  - inversion H as [|e ? es0 ? He Hes]; subst. inversion He; subst. constructor. auto.
  - inversion H as [|e ? es0 ? He Hes]; subst. inversion He; subst. constructor; [|auto]. by eapply cr_trimmed_trans.
Qed.

(** The text of a change as it comes out of the log parser: names and attribution. *)
Lemma change_names p : wf_patch p -> short_lines (patch_lines p) ->
  exists d, parse (change_text p) = Ret d /\
    d_prev d = name_before (fp_kind p) /\ d_path d = name_after (fp_kind p) /\ d_binary d = is_binary_body (fp_body p).
Proof.
  intros Hw Hs. unfold change_text. rewrite strip_patch_lines by done.
  destruct (parse_names (strip_patch p)) as (d & H1 & H2 & H3 & H4); [by apply strip_wf|by apply strip_short|].
  exists d. split_and!; try done. rewrite H4. cbn. by destruct (fp_body p).
Qed.
Lemma change_applies p hs tail file commit k :
  wf_patch p -> short_lines (patch_lines p) -> fp_body p = FBText hs ->
  (forall q m, fp_kind p <> FDelete q m) ->
  2 <= k -> has_context k 0 true hs ->
  b_binary file = false -> length (b_lines file) = length (old_text (script hs tail)) ->
  exists d b,
    parse (change_text p) = Ret d /\ apply file d commit = Ret b /\
    b_commit b = commit /\ b_binary b = false /\
    attributed cr_trimmed commit (script hs tail) (b_lines file) (b_lines b).
Proof.
  intros Hw Hs Hb Hd Hk Hc Hbin Hl. unfold change_text. rewrite strip_patch_lines by done.
  pose proof (strip_script hs tail) as Hsc.
  destruct (parse_apply_attributed_cr (strip_patch p) (map strip_hunk hs) tail file commit k) as (d & b & H1 & H2 & H3 & H4 & H5).
  - by apply strip_wf.
  - by apply strip_short.
  - cbn. by rewrite Hb.
  - done.
  - done.
  - by apply strip_context.
  - done.
  - rewrite Hl. apply edit_cr_old in Hsc. by apply Forall2_length in Hsc.
  - exists d, b. split_and!; try done. by eapply edit_cr_attributed.
Qed.

(** ** Over-long lines *)
Lemma scan_raw_long max ls : Exists (fun l => (max <= N.of_nat (length l))%N) ls -> snd (scan_raw max ls) = true.
Proof.
  induction 1 as [l ls H|l ls _ IH]; cbn [scan_raw].
  - by rewrite (proj2 (N.leb_le _ _) H).
  - destruct (_ <=? _)%N; [done|]. by destruct (scan_raw max ls).
Qed.
Lemma log_run_long d : Exists (fun l => (100000000 <= N.of_nat (length l))%N) (raw_lines d) -> forall cs, log_run d <> (cs, Ret tt).
Proof.
  intros H cs. apply scan_raw_long in H. unfold log_run, scan, max_line. destruct (scan_raw _ (raw_lines d)) as [ts e]. cbn in H. subst e.
  destruct (lp_lines lp_init ts) as [s [| |]]; cbn; intros [=].
Qed.
