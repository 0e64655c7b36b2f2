(** * Where a patch can be applied: lemmas for C100 *)
From Verif.Model Require Import Base GoStrings IncBlame.
From Verif.Spec Require Import Text UnifiedDiff Attribution.
From Verif.Proofs Require Import TextLemmas HunkHeader ParsePatch ApplyPatch IncBlameMore.
From Coq Require Import Lia.

(** ** How far the patch reaches *)
Section Reach.
Context {L : Type} (old : list L).
Lemma line_idx s b s' : apply_line old s (drop_cr (drop_cr b)) = Ret s' -> forall e, b = edit_line e ->
  ap_idx s' = ap_idx s + length (old_text [e]).
Proof.
  intros H e ->. revert H. destruct e as [t|t|t]; cbn [edit_line B list_ascii_of_string app]; rewrite dd_cons by done; unfold apply_line.
  - rewrite bool_decide_eq_true_2 by done. cbn [orb]. destruct (old !! ap_idx s); [|done]. intros [= <-]. cbn. lia.
  - rewrite !(bool_decide_eq_false_2 ("-"%char = _)) by done. cbn [orb]. rewrite bool_decide_eq_true_2 by done. intros [= <-]. cbn. lia.
  - rewrite !(bool_decide_eq_false_2 ("+"%char = _)) by done. cbn [orb]. rewrite bool_decide_eq_true_2 by done. intros [= <-]. cbn. lia.
Qed.
Lemma body_idx body : forall s s', ofold (apply_line old) s (map drop_cr (map drop_cr (body_lines body))) = Ret s' ->
  ap_idx s' = ap_idx s + length (old_text (map fst body)).
Proof.
  induction body as [|[e mk] body IH]; intros s s'; [intros [= <-]; cbn; lia|]. unfold body_lines. cbn [map concat body_line fst snd app ofold].
  change (concat (map body_line body)) with (body_lines body). destruct (apply_line old s _) as [s1|m|m] eqn:E; cbn [obind]; [|done..].
  pose proof (line_idx _ _ _ E e eq_refl) as H1. intros H2.
  assert (H3 : ofold (apply_line old) s1 (map drop_cr (map drop_cr (body_lines body))) = Ret s').
  { revert H2. rewrite !map_app, ofold_app. by destruct mk. }
  apply IH in H3. change (e :: map fst body) with ([e] ++ map fst body). rewrite old_text_app, app_length. lia.
Qed.
Lemma hunks_idx hs : forall o s s', ap_idx s = o -> located o hs -> Forall body_ok hs -> ofold (apply_hunk old) s (hunk_keys o hs) = Ret s' ->
  ap_idx s' = o + length (old_text (concat (map hunk_script hs))).
Proof.
  induction hs as [|h hs IH]; intros o s s' Hi Hl Hok; [intros [= <-]; cbn; lia|]. cbn [hunk_keys located map concat] in *. destruct Hl as [Hl1 Hl2].
  apply Forall_cons in Hok as [Hb Hok]. cbn [ofold]. unfold apply_hunk at 1. cbn [fst snd].
  fold (start_index (hl_off (parsed_loc OpDel (o + length (sh_gap h)) (old_count h)))). rewrite parsed_loc_start by done. cbv zeta.
  destruct (copy_range old s _ _) as [s1|m|m]; cbn [obind]; [|done..]. rewrite scan_body by done. rewrite Nat2Z.id.
  destruct (ofold _ _ (map drop_cr (map drop_cr (body_lines (sh_body h))))) as [s2|m|m] eqn:E; cbn [obind]; [|done..]. apply body_idx in E. cbn [ap_idx] in E.
  fold (old_count h) in E. intros H. apply (IH (o + length (sh_gap h) + old_count h)) in H; [|done..]. rewrite H.
  rewrite old_text_app, app_length. unfold hunk_script at 2. rewrite old_text_app, old_text_keep, app_length. fold (old_count h). lia.
Qed.
Lemma core_reach hs out : located 0 hs -> separated true hs -> Forall body_ok hs -> apply_core old (parsed_hunks 0 0 hs) = Ret out ->
  length (old_text (concat (map hunk_script hs))) <= length old.
Proof.
  intros Hl Hs Hb. unfold apply_core. rewrite parsed_hunks_keys. cbn [obind]. pose proof (hunk_keys_sorted hs Hl Hs) as Hk.
  rewrite sort_hunks_id by (by apply klt_kle || by apply klt_nodup). unfold apply_sorted. destruct (ofold _ _ _) as [s|m|m] eqn:E; cbn [obind]; [|done..].
  apply (hunks_idx hs 0) in E; [|done..]. unfold copy_range. destruct (_ && _) eqn:Ec; [|done]. intros _. rewrite !andb_true_iff, !Z.leb_le in Ec. cbn in E. lia.
Qed.
(** There is no other way to fail than a panic. *)
Lemma ofold_no_err {S C} (f : S -> C -> outcome S) : (forall s x e, f s x <> Err e) -> forall l s e, ofold f s l <> Err e.
Proof. intros Hf l. induction l as [|x l IH]; intros s e; cbn [ofold]; [done|]. destruct (f s x) as [y|e'|e'] eqn:E; cbn [obind]; [apply IH|by destruct (Hf s x e')|done]. Qed.
Lemma core_no_err hs e : apply_core old hs <> Err e.
Proof.
  assert (Hc : forall s a b m, copy_range old s a b <> Err m) by (intros s a b m; unfold copy_range; by destruct (_ && _)).
  assert (Hl : forall s b m, apply_line old s b <> Err m).
  { intros s b m. unfold apply_line. destruct b as [|op data]; [done|]. destruct (_ || _); [by destruct (old !! _)|]. do 2 (destruct (bool_decide _); [done|]).
    destruct (bool_decide _); [|done]. by destruct (beq _ _). }
  unfold apply_core, apply_sorted. destruct (omapM hunk_key hs) as [ks|m|m] eqn:E; cbn [obind]; [| |done].
  - destruct (ofold _ _ _) as [s|m|m] eqn:E2; cbn [obind]; [| |done].
    + destruct (copy_range old s _ _) as [?|m|m] eqn:E3; cbn [obind]; [done| |done]. by destruct (Hc _ _ _ _ E3).
    + exfalso. revert E2. apply ofold_no_err. intros s' h m'. unfold apply_hunk. cbv zeta. destruct (copy_range old s' _ _) as [?|x|x] eqn:E3; cbn [obind]; [|by destruct (Hc _ _ _ _ E3)|done].
      destruct (scan max_line (snd h)) as [ts t]. destruct (ofold _ _ ts) as [?|x|x] eqn:E4; cbn [obind]; [by destruct t| |done]. by destruct (ofold_no_err _ Hl _ _ _ E4).
  - exfalso. revert m E. induction hs as [|h hs IH]; intros m; cbn [omapM]; [done|]. unfold hunk_key at 1. destruct (hk_locs h); cbn [obind]; [done|].
    destruct (omapM hunk_key hs) as [?|x|x]; cbn [obind]; [done| |done]. by destruct (IH x).
Qed.
End Reach.

Definition patch_reach (hs : list shunk) : nat := length (old_text (concat (map hunk_script hs))).
Lemma script_old_length hs tail : length (old_text (script hs tail)) = patch_reach hs + length tail.
Proof. unfold script. by rewrite old_text_app, app_length, old_text_keep. Qed.
Lemma parsed_hunks_of p hs : fp_body p = FBText hs -> (forall q m, fp_kind p <> FDelete q m) ->
  parsed_body (fp_kind p) (fp_body p) = parsed_hunks 0 0 hs.
Proof. intros Hb Hk. rewrite Hb. unfold parsed_body. destruct (fp_kind p) as [| |q m|]; try done. by destruct (Hk q m). Qed.

Lemma too_short_panics p hs file commit k : wf_patch p -> short_lines (patch_lines p) -> fp_body p = FBText hs -> (forall q m, fp_kind p <> FDelete q m) ->
  2 <= k -> has_context k 0 true hs -> b_binary file = false -> length (b_lines file) < patch_reach hs ->
  exists d msg, parse (render_patch p) = Ret d /\ apply file d commit = Panic msg.
Proof.
  intros Hwf Hs Hb Hk Hk2 Hctx Hbin Hlen. destruct (context_located k 0 true hs Hk2 Hctx) as [Hl Hsep]. pose proof (body_ok_patch p hs Hwf Hs Hb) as Hok.
  pose proof (parse_render p Hwf Hs) as Hp. eexists. destruct (apply_core (b_lines file) (parsed_hunks 0 0 hs)) as [out|e|e] eqn:E.
  - exfalso. apply core_reach in E; [|done..]. unfold patch_reach in Hlen. lia.
  - by destruct (core_no_err _ _ _ E).
  - exists e. split; [exact Hp|]. unfold apply. rewrite Hbin. cbn [d_binary d_hunks]. rewrite (parsed_hunks_of p hs Hb Hk), Hb. cbn [is_binary_body]. by rewrite E.
Qed.

(** Only the number of lines matters: the same lines of another file are copied, and the same lines are added. *)
Lemma pair_up {A} (l l' : list A) : length l = length l' -> map fst (zip l l') = l /\ map snd (zip l l') = l'.
Proof.
  revert l'. induction l as [|x l IH]; intros [|y l']; cbn; intros H; try done. destruct (IH l') as [H1 H2]; [lia|]. by rewrite H1, H2.
Qed.
Lemma contents_not_compared file file' d commit b : apply file d commit = Ret b -> b_binary file' = false -> length (b_lines file') = length (b_lines file) ->
  exists b', apply file' d commit = Ret b' /\
    Forall2 (fun l l' => (exists j, b_lines file !! j = Some l /\ b_lines file' !! j = Some l') \/ (l = l' /\ l_commit l = commit)) (b_lines b) (b_lines b').
Proof.
  unfold apply. destruct (b_binary file); [done|]. intros H -> Hlen. destruct (d_binary d); [done|].
  set (zs := zip (b_lines file) (b_lines file')). destruct (pair_up (b_lines file) (b_lines file')) as [H1 H2]; [done|]. fold zs in H1, H2.
  pose proof (apply_core_map fst zs (d_hunks d)) as N1. pose proof (apply_core_map snd zs (d_hunks d)) as N2. rewrite H1 in N1. rewrite H2 in N2.
  destruct (apply_core zs (d_hunks d)) as [out|e|e] eqn:E; cbn [omap_o] in N1, N2; rewrite N1 in H; cbn [obind] in H; [|done..]. injection H as <-.
  eexists. rewrite N2. cbn [obind]. split; [reflexivity|]. cbn [b_lines].
  assert (Hz : Forall (fun z => exists j, b_lines file !! j = Some z.1 /\ b_lines file' !! j = Some z.2) zs).
  { apply Forall_forall. intros z Hin. apply elem_of_list_lookup in Hin as [j Hj]. exists j. rewrite <- H1, <- H2.
    change (map fst zs) with (fst <$> zs). change (map snd zs) with (snd <$> zs). by rewrite !list_lookup_fmap, Hj. }
  pose proof (apply_core_incl _ _ _ _ E Hz) as Hi. clear - Hi. induction Hi as [|[z|t] out Hx _ IH]; cbn [map map_sum resolve_line]; constructor; try exact IH.
  - by left.
  - by right.
Qed.
