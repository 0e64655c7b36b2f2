(** Applying the hunks git prints. *)
From Verif.Model Require Import Base GoStrings IncBlame.
From Verif.Spec Require Import Text UnifiedDiff Attribution.
From Verif.Proofs Require Import TextLemmas HunkHeader ParsePatch.
From Coq Require Import Lia.

(** What a script does to a list of old lines, with lines abstract. *)
Inductive patched {L : Type} : list edit -> list L -> list (L + bytes) -> Prop :=
| pa_nil : patched [] [] []
| pa_keep t l es old new : patched es old new -> patched (Keep t :: es) (l :: old) (inl l :: new)
| pa_del t l es old new : patched es old new -> patched (Del t :: es) (l :: old) new
| pa_add t es old new : patched es old new -> patched (Add t :: es) old (inr (drop_cr (drop_cr t)) :: new).

Lemma patched_app {L} es1 es2 (o1 o2 : list L) n1 n2 :
  patched es1 o1 n1 -> patched es2 o2 n2 -> patched (es1 ++ es2) (o1 ++ o2) (n1 ++ n2).
Proof. intros H1 H2. induction H1; cbn; [done|by constructor..]. Qed.
Lemma patched_keep {L} ts (o : list L) : length ts = length o -> patched (map Keep ts) o (map inl o).
Proof.
  revert o. induction ts as [|t ts IH]; intros [|x o] H; cbn in *; try lia; constructor. apply IH. lia.
Qed.

Lemma dd_cons c l : c <> CR -> drop_cr (drop_cr (c :: l)) = c :: drop_cr (drop_cr l).
Proof. intros H. by rewrite !drop_cr_prefix_c. Qed.

Lemma apply_body {L} (body : list (edit * bool)) (old pre seg post : list L) r :
  old = pre ++ seg ++ post -> length seg = length (old_text (map fst body)) ->
  exists out,
    ofold (apply_line old) (Apst r (length pre)) (map drop_cr (map drop_cr (body_lines body)))
      = Ret (Apst (r ++ out) (length pre + length seg)) /\
    patched (map fst body) seg out.
Proof.
  revert pre seg r. induction body as [|[e mk] body IH]; intros pre seg r Hold Hlen.
  - destruct seg; [|done]. exists []. cbn. rewrite app_nil_r, Nat.add_0_r. split; [done|constructor].
  - cbn [map fst]. unfold body_lines. cbn [map concat body_line fst snd].
    change (concat (map body_line body)) with (body_lines body).
    set (mks := if mk then [B "\ No newline at end of file"] else []).
    assert (Hmk : forall s, ofold (apply_line old) s (map drop_cr (map drop_cr (mks ++ body_lines body)))
                  = ofold (apply_line old) s (map drop_cr (map drop_cr (body_lines body)))).
    { intros s. rewrite !map_app, ofold_app. unfold mks. by destruct mk. }
    change (body_line (e, mk)) with (edit_line e :: mks). cbn [map ofold app].
    destruct e as [t|t|t]; cbn [edit_line B list_ascii_of_string app]; rewrite dd_cons by done.
    + cbn [map fst old_text length] in Hlen. destruct seg as [|x seg]; [done|]. cbn in Hlen.
      unfold apply_line at 1. rewrite bool_decide_eq_true_2 by done. cbn [orb ap_idx ap_res].
      assert (old !! length pre = Some x) as ->.
      { rewrite Hold. rewrite lookup_app_r by lia. by rewrite Nat.sub_diag. }
      cbn [obind]. rewrite Hmk.
      destruct (IH (pre ++ [x]) seg (r ++ [inl x])) as (out & H1 & H2).
      { by rewrite Hold, <-app_assoc. } { lia. }
      rewrite app_length in H1. cbn [length] in H1.
      replace (S (length pre)) with (length pre + 1) by lia. rewrite H1.
      exists (inl x :: out). split; [|by constructor].
      rewrite <-app_assoc. cbn. do 2 f_equal. lia.
    + cbn [map fst old_text length] in Hlen. destruct seg as [|x seg]; [done|]. cbn in Hlen.
      unfold apply_line at 1. cbn [orb ap_idx ap_res].
      rewrite !(bool_decide_eq_false_2 ("-"%char = _)) by done. cbn [orb].
      rewrite bool_decide_eq_true_2 by done. cbn [obind]. rewrite Hmk.
      destruct (IH (pre ++ [x]) seg r) as (out & H1 & H2).
      { by rewrite Hold, <-app_assoc. } { lia. }
      rewrite app_length in H1. cbn [length] in H1.
      replace (S (length pre)) with (length pre + 1) by lia. rewrite H1.
      exists out. split; [|by constructor]. cbn. do 2 f_equal. lia.
    + cbn [map fst old_text length] in Hlen.
      unfold apply_line at 1. cbn [orb ap_idx ap_res].
      rewrite !(bool_decide_eq_false_2 ("+"%char = _)) by done. cbn [orb].
      rewrite bool_decide_eq_true_2 by done. cbn [obind]. rewrite Hmk.
      destruct (IH pre seg (r ++ [inr (drop_cr (drop_cr t))])) as (out & H1 & H2); [done|done|].
      exists (inr (drop_cr (drop_cr t)) :: out). split; [|by constructor].
      rewrite <-app_assoc in H1. exact H1.
Qed.

(** Positions: every hunk is where parse_context puts it. *)
Fixpoint located (opos : nat) (hs : list shunk) : Prop :=
  match hs with
  | [] => True
  | h :: r =>
      let o := opos + length (sh_gap h) in
      (2 <= old_count h \/ o = 0) /\ located (o + old_count h) r
  end.

Fixpoint hunk_keys (opos : nat) (hs : list shunk) : list (Z * bytes) :=
  match hs with
  | [] => []
  | h :: r =>
      let o := opos + length (sh_gap h) in
      (hl_off (parsed_loc OpDel o (old_count h)), unlines (map drop_cr (body_lines (sh_body h))))
        :: hunk_keys (o + old_count h) r
  end.

Lemma parsed_hunks_keys opos npos hs : omapM hunk_key (parsed_hunks opos npos hs) = Ret (hunk_keys opos hs).
Proof.
  revert opos npos. induction hs as [|h hs IH]; intros opos npos; [done|].
  cbn [parsed_hunks hunk_keys omapM]. unfold hunk_key at 1. cbn [parsed_hunk hk_locs hk_data obind].
  by rewrite IH.
Qed.

Definition body_ok (h : shunk) : Prop :=
  Forall no_nl (body_lines (sh_body h)) /\ short_lines (body_lines (sh_body h)).

Lemma scan_body h : body_ok h ->
  scan max_line (unlines (map drop_cr (body_lines (sh_body h)))) = (map drop_cr (map drop_cr (body_lines (sh_body h))), false).
Proof.
  intros [H1 H2]. apply scan_unlines.
  - apply Forall_fmap. eapply Forall_impl; [exact H1|]. intros x Hx. by apply drop_cr_no_nl.
  - apply Forall_fmap. eapply Forall_impl; [exact H2|]. intros x Hx. cbn in *.
    pose proof (drop_cr_length x). unfold max_line. lia.
Qed.

Lemma copy_range_ok {L} (pre seg post : list L) s :
  copy_range (pre ++ seg ++ post) s (Z.of_nat (length pre)) (Z.of_nat (length pre + length seg))
  = Ret (Apst (ap_res s ++ map inl seg) (ap_idx s)).
Proof.
  unfold copy_range.
  assert (((0 <=? Z.of_nat (length pre)) && (Z.of_nat (length pre) <=? Z.of_nat (length pre + length seg))
          && (Z.of_nat (length pre + length seg) <=? Z.of_nat (length (pre ++ seg ++ post))))%Z = true) as ->.
  { rewrite !app_length. rewrite !andb_true_iff, !Z.leb_le. lia. }
  rewrite !Nat2Z.id. rewrite drop_app_len.
  replace (length pre + length seg - length pre) with (length seg) by lia. by rewrite take_app.
Qed.

Lemma copy_range_eq {L} (old pre seg post : list L) s from to :
  old = pre ++ seg ++ post -> from = Z.of_nat (length pre) -> to = Z.of_nat (length pre + length seg) ->
  copy_range old s from to = Ret (Apst (ap_res s ++ map inl seg) (ap_idx s)).
Proof. intros -> -> ->. apply copy_range_ok. Qed.

Lemma old_text_app a b : old_text (a ++ b) = old_text a ++ old_text b.
Proof. induction a as [|[]]; cbn; congruence. Qed.
Lemma old_text_keep ts : old_text (map Keep ts) = ts.
Proof. induction ts; cbn; congruence. Qed.
Lemma new_text_app a b : new_text (a ++ b) = new_text a ++ new_text b.
Proof. induction a as [|[]]; cbn; congruence. Qed.
Lemma new_text_keep ts : new_text (map Keep ts) = ts.
Proof. induction ts; cbn; congruence. Qed.

Lemma apply_hunks {L} (hs : list shunk) (old pre seg post : list L) r :
  old = pre ++ seg ++ post -> located (length pre) hs -> Forall body_ok hs ->
  length seg = length (old_text (concat (map hunk_script hs))) ->
  exists out,
    ofold (apply_hunk old) (Apst r (length pre)) (hunk_keys (length pre) hs)
      = Ret (Apst (r ++ out) (length pre + length seg)) /\
    patched (concat (map hunk_script hs)) seg out.
Proof.
  revert pre seg r. induction hs as [|h hs IH]; intros pre seg r Hold Hloc Hok Hlen.
  - destruct seg; [|done]. exists []. cbn. rewrite app_nil_r, Nat.add_0_r. split; [done|constructor].
  - cbn [hunk_keys located map concat] in *. apply Forall_cons_1 in Hok as [Hb Hok].
    destruct Hloc as [Hl1 Hl2]. rewrite old_text_app, app_length in Hlen.
    unfold hunk_script in Hlen at 1. rewrite old_text_app, old_text_keep, app_length in Hlen.
    fold (old_count h) in Hlen.
    set (g := length (sh_gap h)) in *.
    (* split seg into gap, body, rest *)
    set (sg := take g seg). set (sb := take (old_count h) (drop g seg)). set (sr := drop (old_count h) (drop g seg)).
    assert (Hseg : seg = sg ++ sb ++ sr) by (unfold sg, sb, sr; by rewrite !take_drop).
    assert (Hlg : length sg = g) by (unfold sg; rewrite take_length; lia).
    assert (Hlb : length sb = old_count h) by (unfold sb; rewrite take_length, drop_length; lia).
    assert (Hlr : length sr = length (old_text (concat (map hunk_script hs)))).
    { unfold sr. rewrite !drop_length. lia. }
    cbn [ofold]. unfold apply_hunk at 1. cbn [fst snd ap_idx].
    fold (start_index (hl_off (parsed_loc OpDel (length pre + g) (old_count h)))).
    rewrite parsed_loc_start by done. cbv zeta.
    assert (Hold2 : old = pre ++ sg ++ (sb ++ sr ++ post)).
    { rewrite Hold, Hseg. by rewrite <-!app_assoc. }
    rewrite (copy_range_eq old pre sg (sb ++ sr ++ post)) by (done || (rewrite Hlg; done)). cbn [obind ap_res]. rewrite scan_body by done.
    rewrite Nat2Z.id.
    destruct (apply_body (sh_body h) old (pre ++ sg) sb (sr ++ post) (r ++ map inl sg)) as (out1 & H1 & H2).
    { rewrite Hold2. by rewrite <-!app_assoc. } { done. }
    rewrite app_length, Hlg in H1. rewrite H1. cbn [obind].
    destruct (IH (pre ++ sg ++ sb) sr ((r ++ map inl sg) ++ out1)) as (out2 & H3 & H4).
    { rewrite Hold2. by rewrite <-!app_assoc. }
    { rewrite !app_length, Hlg, Hlb. by rewrite Nat.add_assoc. } { done. } { done. }
    rewrite !app_length, Hlg, Hlb, !Nat.add_assoc in H3. rewrite Hlb, H3.
    exists (map inl sg ++ out1 ++ out2). split.
    + rewrite <-!app_assoc. do 2 f_equal. rewrite Hseg, !app_length. lia.
    + rewrite Hseg. rewrite app_assoc, app_assoc. apply patched_app; [|done].
      unfold hunk_script. apply patched_app; [|done]. apply patched_keep. by rewrite Hlg.
Qed.

Lemma apply_sorted_ok {L} (hs : list shunk) (tail : list bytes) (old : list L) :
  located 0 hs -> Forall body_ok hs -> length old = length (old_text (script hs tail)) ->
  exists out, apply_sorted old (hunk_keys 0 hs) = Ret out /\ patched (script hs tail) old out.
Proof.
  intros Hloc Hok Hlen. unfold script in *. rewrite old_text_app, app_length, old_text_keep in Hlen.
  set (n := length (old_text (concat (map hunk_script hs)))) in *.
  set (seg := take n old). set (post := drop n old).
  assert (Hold : old = [] ++ seg ++ post) by (unfold seg, post; by rewrite take_drop).
  assert (Hls : length seg = n) by (unfold seg; rewrite take_length; lia).
  destruct (apply_hunks hs old [] seg post [] Hold Hloc Hok Hls) as (out & H1 & H2).
  cbn [length app Nat.add] in H1. unfold apply_sorted. rewrite H1. cbn [obind ap_idx].
  assert (Hold2 : old = seg ++ post ++ []) by (by rewrite app_nil_r).
  rewrite (copy_range_eq old seg post []); [|done|done|].
  2:{ rewrite Hold at 1. cbn [app]. by rewrite app_length. }
  cbn [obind ap_res].
  exists (out ++ map inl post). split; [done|].
  rewrite Hold at 1. cbn [app]. apply patched_app; [done|]. apply patched_keep.
  unfold post. rewrite drop_length. lia.
Qed.

(** ** Sorting *)
Definition klt (a b : Z * bytes) : Prop := (fst a < fst b)%Z.
Definition kle (a b : Z * bytes) : Prop := (fst a <= fst b)%Z.

Lemma insert_hunk_perm h hs : insert_hunk h hs ≡ₚ h :: hs.
Proof.
  induction hs as [|x hs IH]; [done|]. cbn. destruct (_ <=? _)%Z; [done|]. rewrite IH. by constructor.
Qed.
Lemma sort_hunks_perm hs : sort_hunks hs ≡ₚ hs.
Proof. induction hs as [|h hs IH]; [done|]. cbn. by rewrite insert_hunk_perm, IH. Qed.
Lemma insert_hunk_sorted h hs : StronglySorted kle hs -> StronglySorted kle (insert_hunk h hs).
Proof.
  induction 1 as [|x hs Hs IH Hx]; cbn; [repeat constructor|].
  destruct (Z.leb_spec (fst h) (fst x)).
  - constructor; [by constructor|]. constructor; [done|].
    eapply Forall_impl; [exact Hx|]. unfold kle. intros. lia.
  - constructor; [done|]. rewrite insert_hunk_perm. constructor; [unfold kle; lia|done].
Qed.
Lemma sort_hunks_sorted hs : StronglySorted kle (sort_hunks hs).
Proof. induction hs; cbn; [constructor|by apply insert_hunk_sorted]. Qed.

Lemma sorted_distinct_lt ks : StronglySorted kle ks -> NoDup (map fst ks) -> StronglySorted klt ks.
Proof.
  induction 1 as [|x ks Hs IH Hx]; intros Hnd; [constructor|]. cbn in Hnd.
  apply NoDup_cons in Hnd as [Hn Hnd]. constructor; [by apply IH|].
  rewrite Forall_forall in Hx |- *. intros y Hy. specialize (Hx y Hy). unfold kle, klt in *.
  assert (fst x <> fst y); [|lia]. intros He. apply Hn. rewrite He. by apply elem_of_list_fmap_1.
Qed.
#[global] Instance klt_trans : Transitive klt. Proof. unfold klt. intros a b c. lia. Qed.
#[global] Instance klt_antisymm : AntiSymm (=) klt. Proof. unfold klt. intros a b. lia. Qed.

Lemma sorted_keys_unique ks1 ks2 :
  StronglySorted kle ks1 -> StronglySorted kle ks2 -> ks1 ≡ₚ ks2 -> NoDup (map fst ks1) -> ks1 = ks2.
Proof.
  intros H1 H2 Hp Hn. eapply (StronglySorted_unique klt); [..|exact Hp]; apply sorted_distinct_lt; try done.
  by rewrite <-Hp.
Qed.

Lemma sort_hunks_id ks : StronglySorted kle ks -> NoDup (map fst ks) -> sort_hunks ks = ks.
Proof.
  intros H1 H2. symmetry. apply sorted_keys_unique; [done|apply sort_hunks_sorted|by rewrite sort_hunks_perm|done].
Qed.

(** Keys of rendered hunks are strictly increasing. *)
Fixpoint separated (first : bool) (hs : list shunk) : Prop :=
  match hs with
  | [] => True
  | h :: r => (first = true \/ sh_gap h <> []) /\ separated false r
  end.

Lemma hunk_keys_bound o hs : located o hs -> separated false hs ->
  Forall (fun k => (Z.of_nat o + 1 < fst k)%Z) (hunk_keys o hs).
Proof.
  revert o. induction hs as [|h hs IH]; intros o Hl Hs; [constructor|].
  cbn [hunk_keys located separated] in *. destruct Hl as [Hl1 Hl2]. destruct Hs as [[?|Hg] Hs]; [done|].
  assert (1 <= length (sh_gap h)) by (destruct (sh_gap h); cbn; [done|lia]).
  constructor.
  - cbn [fst]. unfold parsed_loc. destruct (Nat.eqb_spec (old_count h) 1); [lia|].
    destruct (Nat.eqb_spec (old_count h) 0); [lia|]. cbn. lia.
  - eapply Forall_impl; [apply IH; done|]. cbn. intros. lia.
Qed.

Lemma hunk_keys_sorted hs : located 0 hs -> separated true hs -> StronglySorted klt (hunk_keys 0 hs).
Proof.
  assert (Hgen : forall o b, located o hs -> separated b hs -> StronglySorted klt (hunk_keys o hs)).
  2:{ apply Hgen. }
  induction hs as [|h hs IH]; intros o b Hl Hs; [constructor|].
  cbn [hunk_keys located separated] in *. destruct Hl as [Hl1 Hl2]. destruct Hs as [_ Hs].
  constructor; [by eapply IH|].
  eapply Forall_impl; [by apply hunk_keys_bound|]. intros k Hk. unfold klt. cbn [fst] in *.
  unfold parsed_loc. destruct (Nat.eqb_spec (old_count h) 1); [cbn; lia|].
  destruct (Nat.eqb_spec (old_count h) 0); cbn; lia.
Qed.

Lemma klt_nodup ks : StronglySorted klt ks -> NoDup (map fst ks).
Proof.
  induction 1 as [|x ks _ IH Hx]; [constructor|]. cbn. constructor; [|done].
  rewrite elem_of_list_fmap. intros (y & He & Hy). rewrite Forall_forall in Hx. specialize (Hx y Hy).
  unfold klt in Hx. lia.
Qed.
Lemma klt_kle ks : StronglySorted klt ks -> StronglySorted kle ks.
Proof.
  induction 1 as [|x ks _ IH Hx]; constructor; [done|]. eapply Forall_impl; [exact Hx|]. unfold klt, kle. intros; lia.
Qed.

Lemma apply_core_ok {L} (hs : list shunk) (tail : list bytes) (old : list L) :
  located 0 hs -> separated true hs -> Forall body_ok hs -> length old = length (old_text (script hs tail)) ->
  exists out, apply_core old (parsed_hunks 0 0 hs) = Ret out /\ patched (script hs tail) old out.
Proof.
  intros Hl Hs Hb Hlen. unfold apply_core. rewrite parsed_hunks_keys. cbn [obind].
  pose proof (hunk_keys_sorted hs Hl Hs) as Hk.
  rewrite sort_hunks_id by (by apply klt_kle || by apply klt_nodup).
  by apply apply_sorted_ok.
Qed.

(** git's context gives [located] and [separated]. *)
Lemma context_located k o b hs : 2 <= k -> has_context k o b hs -> located o hs /\ separated b hs.
Proof.
  intros Hk. revert o b. induction hs as [|h hs IH]; intros o b H; [done|].
  cbn [has_context located separated] in *. destruct H as (H1 & H2 & H3). destruct (IH _ _ H3) as [H4 H5].
  split_and!; try done. destruct H2 as [H2|(ctx & rest & Hc & Hbd)]; [by right|left].
  unfold old_count. rewrite Hbd, map_app, old_text_app, app_length.
  rewrite map_map. cbn. rewrite old_text_keep. lia.
Qed.

Lemma body_ok_patch p hs : wf_patch p -> short_lines (patch_lines p) -> fp_body p = FBText hs -> Forall body_ok hs.
Proof.
  intros Hwf Hs Hb. pose proof (patch_lines_no_nl p Hwf) as Hn.
  unfold patch_lines in *. rewrite Hb in *. cbn [fbody_lines] in *.
  unfold short_lines in *.
  apply Forall_cons_1 in Hn as [_ Hn], Hs as [_ Hs]. 
  apply Forall_app in Hn as [_ Hn], Hs as [_ Hs]. apply Forall_app in Hn as [_ Hn], Hs as [_ Hs].
  apply Forall_cons_1 in Hn as [_ Hn], Hs as [_ Hs]. apply Forall_cons_1 in Hn as [_ Hn], Hs as [_ Hs].
  revert Hn Hs. generalize 0 at 1 3 as o. generalize 0 as n.
  induction hs as [|h hs' IH] in |- *; intros n o Hn Hs; [constructor|]. cbn [hunks_lines] in *.
  apply Forall_cons_1 in Hn as [_ Hn], Hs as [_ Hs]. apply Forall_app in Hn as [Hn1 Hn], Hs as [Hs1 Hs].
  constructor; [done|]. eauto.
Qed.

Lemma patched_attributed c es old out :
  patched es old out ->
  attributed (fun t t' => t' = drop_cr (drop_cr t)) c es old (map (resolve_line c) out).
Proof. induction 1; cbn; by constructor. Qed.

Theorem parse_apply_attributed p hs tail file commit k :
  wf_patch p -> short_lines (patch_lines p) -> fp_body p = FBText hs ->
  (forall q m, fp_kind p <> FDelete q m) ->
  2 <= k -> has_context k 0 true hs ->
  b_binary file = false -> length (b_lines file) = length (old_text (script hs tail)) ->
  exists d b,
    parse (render_patch p) = Ret d /\ apply file d commit = Ret b /\
    b_commit b = commit /\ b_binary b = false /\
    attributed (fun t t' => t' = drop_cr (drop_cr t)) commit (script hs tail) (b_lines file) (b_lines b).
Proof.
  intros Hwf Hs Hb Hk Hk2 Hctx Hbin Hlen.
  destruct (context_located k 0 true hs Hk2 Hctx) as [Hl Hsep].
  pose proof (body_ok_patch p hs Hwf Hs Hb) as Hok.
  destruct (apply_core_ok hs tail (b_lines file) Hl Hsep Hok Hlen) as (out & H1 & H2).
  rewrite (parse_render p Hwf Hs). rewrite Hb. eexists _, _. split; [done|].
  unfold apply. rewrite Hbin. cbn [d_binary is_binary_body d_hunks].
  assert (parsed_body (fp_kind p) (FBText hs) = parsed_hunks 0 0 hs) as ->.
  { unfold parsed_body. destruct (fp_kind p) as [| |q m|]; try done. by destruct (Hk q m). }
  rewrite H1. cbn [obind]. split; [done|]. cbn. split_and!; [done|done|]. by apply patched_attributed.
Qed.

(** ** Consequences *)
Lemma attributed_mono (R R' : bytes -> bytes -> Prop) c es old new :
  (forall t t', R t t' -> R' t t') -> attributed R c es old new -> attributed R' c es old new.
Proof. intros HR. induction 1; constructor; auto. Qed.

Lemma attributed_length_old R c es old new :
  attributed R c es old new -> length old = length (old_text es).
Proof. induction 1; cbn; lia. Qed.

Lemma same_up_to_cr_refl a : same_up_to_cr a a.
Proof. exists a. split; apply cr_trimmed_refl. Qed.
Lemma attributed_texts c es old new :
  attributed (fun t t' => t' = drop_cr (drop_cr t)) c es old new ->
  Forall2 same_up_to_cr (texts old) (old_text es) ->
  Forall2 same_up_to_cr (texts new) (new_text es).
Proof.
  induction 1 as [|t l es old new _ IH|t l es old new _ IH|t t' es old new Ht _ IH]; cbn; intros H.
  - constructor.
  - inversion H; subst. constructor; auto.
  - inversion H; subst. auto.
  - constructor; [|auto]. subst t'. exists (drop_cr (drop_cr t)). split; [apply cr_trimmed_refl|].
    eapply cr_trimmed_trans; apply drop_cr_trimmed.
Qed.
Lemma attributed_texts_exact c es old new :
  attributed (fun t t' => t' = drop_cr (drop_cr t)) c es old new ->
  Forall no_trailing_cr (new_text es) ->
  texts old = old_text es -> texts new = new_text es.
Proof.
  induction 1 as [|t l es old new _ IH|t l es old new _ IH|t t' es old new Ht _ IH]; cbn; intros Hc H.
  - done.
  - inversion H; subst. apply Forall_cons_1 in Hc as [Hc1 Hc]. f_equal. auto.
  - inversion H; subst. auto.
  - apply Forall_cons_1 in Hc as [Hc1 Hc]. f_equal; [|auto]. subst t'. by rewrite !(drop_cr_no_cr t).
Qed.
