(** Remaining lemmas for the property file: merge attribution, heap refinement of ApplyMerge. *)
From Verif.Model Require Import Base GoStrings IncBlame IncBlameHeap.
From Verif.Spec Require Import Text UnifiedDiff Attribution.
From Verif.Proofs Require Import TextLemmas HunkHeader ParsePatch ApplyPatch IncBlameMore QuotedNames.
From Coq Require Import Lia.

Lemma dd_trimmed t : cr_trimmed t (drop_cr (drop_cr t)).
Proof. eapply cr_trimmed_trans; apply drop_cr_trimmed. Qed.

Lemma parse_apply_attributed_cr p hs tail file commit k :
  wf_patch p -> short_lines (patch_lines p) -> fp_body p = FBText hs ->
  (forall q m, fp_kind p <> FDelete q m) ->
  2 <= k -> has_context k 0 true hs ->
  b_binary file = false -> length (b_lines file) = length (old_text (script hs tail)) ->
  exists d b,
    parse (render_patch p) = Ret d /\ apply file d commit = Ret b /\
    b_commit b = commit /\ b_binary b = false /\
    attributed cr_trimmed commit (script hs tail) (b_lines file) (b_lines b).
Proof.
  intros. destruct (parse_apply_attributed p hs tail file commit k) as (d & b & ? & ? & ? & ? & Ha); try done.
  exists d, b. split_and!; try done. eapply attributed_mono; [|exact Ha]. cbn. intros t t' ->. apply dd_trimmed.
Qed.

Lemma parse_apply_texts p hs tail file commit k :
  wf_patch p -> short_lines (patch_lines p) -> fp_body p = FBText hs ->
  (forall q m, fp_kind p <> FDelete q m) ->
  2 <= k -> has_context k 0 true hs ->
  b_binary file = false ->
  Forall2 same_up_to_cr (texts (b_lines file)) (old_text (script hs tail)) ->
  exists d b,
    parse (render_patch p) = Ret d /\ apply file d commit = Ret b /\
    Forall2 same_up_to_cr (texts (b_lines b)) (new_text (script hs tail)) /\
    (texts (b_lines file) = old_text (script hs tail) -> Forall no_trailing_cr (new_text (script hs tail)) ->
     texts (b_lines b) = new_text (script hs tail)).
Proof.
  intros H1 H2 H3 H4 H5 H6 H7 H8.
  assert (Hl : length (b_lines file) = length (old_text (script hs tail))).
  { apply Forall2_length in H8. unfold texts in H8. by rewrite map_length in H8. }
  destruct (parse_apply_attributed p hs tail file commit k) as (d & b & ? & ? & ? & ? & Ha); try done.
  exists d, b. split_and!; try done; [by eapply attributed_texts|]. intros. by eapply attributed_texts_exact.
Qed.

(** ** C02, arbitrary diffs *)
Lemma apply_lines_origin file d commit b :
  apply file d commit = Ret b ->
  b_commit b = commit /\ b_binary b = false /\
  forall l, l ∈ b_lines b -> l ∈ b_lines file \/ l_commit l = commit.
Proof.
  unfold apply. destruct (b_binary file); [done|]. destruct (d_binary d); [done|].
  destruct (apply_core _ _) as [res| |] eqn:Hc; [|done..]. cbn. intros [= <-]. cbn. split_and!; try done.
  intros l Hl. apply elem_of_list_fmap in Hl as ([x|x] & -> & Hx); [left|by right]. cbn.
  assert (Hf : Forall (fun x => x ∈ b_lines file) (b_lines file)) by (by apply Forall_forall).
  pose proof (apply_core_incl _ _ _ _ Hc Hf) as Hi. rewrite Forall_forall in Hi. exact (Hi _ Hx).
Qed.

(** ** C03 *)
Lemma apply_perm file d hs' commit :
  hs' ≡ₚ d_hunks d -> NoDup (map (fun h => hl_off <$> head (hk_locs h)) (d_hunks d)) ->
  apply file (Diff (d_prev d) (d_path d) (d_binary d) hs') commit = apply file d commit.
Proof.
  intros Hp Hn. unfold apply. cbn [d_binary d_hunks].
  by rewrite (apply_core_perm (b_lines file) (d_hunks d) hs').
Qed.

(** ** C04 *)
Lemma header_located opos ocnt npos ncnt heading :
  2 <= ocnt \/ opos = 0 ->
  exists d a, parse_context (hunk_header opos ocnt npos ncnt heading) = Ret [d; a] /\
    hl_op d = OpDel /\ hl_op a = OpAdd /\ (hl_off d = (Z.of_nat opos + 1)%Z \/ (opos = 0 /\ hl_off d = 0%Z)).
Proof.
  intros H. rewrite parse_context_header. eexists _, _. split; [done|]. unfold parsed_loc.
  destruct (Nat.eqb_spec ocnt 1); [|destruct (Nat.eqb_spec ocnt 0)]; destruct (Nat.eqb_spec ncnt 1);
    try destruct (Nat.eqb_spec ncnt 0); cbn; split_and!; try done; lia.
Qed.
Lemma header_mislocated opos npos ncnt heading :
  0 < opos ->
  (exists d a, parse_context (hunk_header opos 1 npos ncnt heading) = Ret [d; a] /\ hl_off d = 0%Z /\
      ~ (hl_off d = (Z.of_nat opos + 1)%Z \/ (opos = 0 /\ hl_off d = 0%Z))) /\
  (exists d a, parse_context (hunk_header opos 0 npos ncnt heading) = Ret [d; a] /\ hl_off d = Z.of_nat opos /\
      ~ (hl_off d = (Z.of_nat opos + 1)%Z \/ (opos = 0 /\ hl_off d = 0%Z))).
Proof.
  intros H. split; rewrite parse_context_header; eexists _, _; (split; [done|]); cbn; split; lia.
Qed.

(** ** C05, C06 *)
Lemma parse_names p :
  wf_patch p -> short_lines (patch_lines p) ->
  exists d, parse (render_patch p) = Ret d /\
    d_prev d = name_before (fp_kind p) /\ d_path d = name_after (fp_kind p) /\
    d_binary d = is_binary_body (fp_body p).
Proof. intros H1 H2. rewrite parse_render by done. by eexists. Qed.

Lemma quoted_ne_nil q : [] <> quoted q.
Proof. done. Qed.
Lemma quoted_ne q : q <> quoted q.
Proof. intros H. apply (f_equal length) in H. rewrite quoted_length in H. lia. Qed.

Lemma quoted_names_differ q q' :
  escaped_name q -> escaped_name q' -> short_name q -> short_name q' ->
  exists dm dr, parse (quoted_mode_change q) = Ret dm /\ parse (quoted_rename q q') = Ret dr /\
    (SP ∉ q -> d_path dm = q /\ d_prev dm = q) /\
    (SP ∈ q -> d_path dm = [] /\ d_prev dm = []) /\
    d_prev dr = quoted q /\ d_path dr = quoted q' /\ d_path dm <> d_prev dr.
Proof.
  intros. rewrite parse_quoted_mode_change, parse_quoted_rename by done.
  eexists _, _. split; [done|]. split; [done|]. cbn.
  case_bool_decide; cbn; split_and!; try done. apply quoted_ne.
Qed.

(** ** C07 *)
Lemma origins_in es old o n : origins es old !! n = Some (Some o) -> o ∈ old.
Proof.
  revert old n. induction es as [|[t|t|t] es IH]; intros old n H; cbn in H.
  - by rewrite lookup_nil in H.
  - destruct old as [|l old]; [by rewrite lookup_nil in H|]. destruct n; cbn in H; simplify_eq; [by constructor|].
    constructor. by eapply IH.
  - destruct old as [|l old]; cbn in H; [by eapply IH|]. constructor. by eapply IH.
  - destruct n; cbn in H; simplify_eq. by eapply IH.
Qed.

Lemma attributed_first R c es old new : attributed R c es old new ->
  Forall2 (fun l t => R t (l_data l) \/ l ∈ old) new (new_text es).
Proof.
  induction 1 as [|t l es old new _ IH|t l es old new _ IH|t t' es old new Ht _ IH]; cbn.
  - constructor.
  - constructor; [right; by constructor|]. eapply Forall2_impl; [exact IH|]. intros ? ? [?|?]; [by left|right; by constructor].
  - eapply Forall2_impl; [exact IH|]. intros ? ? [?|?]; [by left|right; by constructor].
  - constructor; [by left|done].
Qed.

(** What is needed of one parent and its parsed diff. *)
Definition merge_side_ok (commit : bytes) (p : mparent) (d : diff) : Prop :=
  b_binary (mp_blame p) = false /\ d_binary d = false /\
  (exists c, apply (mp_blame p) d commit = Ret c /\
             attributed cr_trimmed commit (mp_script p) (b_lines (mp_blame p)) (b_lines c)) /\
  Forall2 same_up_to_cr (texts (b_lines (mp_blame p))) (old_text (mp_script p)) /\
  Forall (fun l => l_commit l <> commit) (b_lines (mp_blame p)).

Lemma apply_all_ok commit ps ds :
  Forall2 (merge_side_ok commit) ps ds ->
  exists cs, apply_all (map mp_blame ps) ds commit = Ret cs /\
    Forall2 (fun p c => attributed cr_trimmed commit (mp_script p) (b_lines (mp_blame p)) (b_lines c)) ps cs.
Proof.
  induction 1 as [|p d ps ds Hp _ IH].
  - exists []. split_and!; constructor.
  - destruct IH as (cs & H3 & H4). destruct Hp as (_ & _ & (c & E2 & E3) & _).
    exists (c :: cs). split_and!; [cbn; by rewrite E2, H3|by constructor].
Qed.

Lemma attributed_texts_cr c es old new :
  attributed cr_trimmed c es old new ->
  Forall2 same_up_to_cr (texts old) (old_text es) ->
  Forall2 same_up_to_cr (texts new) (new_text es).
Proof.
  induction 1 as [|t l es old new _ IH|t l es old new _ IH|t t' es old new Ht _ IH]; cbn; intros H.
  - constructor.
  - inversion H; subst. constructor; auto.
  - inversion H; subst. auto.
  - constructor; [|auto]. exists t'. split; [|done]. exists 0. cbn. by rewrite app_nil_r.
Qed.

Lemma merge_core commit ps ds merged :
  ps <> [] -> Forall2 (merge_side_ok commit) ps ds ->
  (forall p, p ∈ ps -> new_text (mp_script p) = merged) ->
  exists b,
    apply_merge (map mp_blame ps) ds commit = Ret b /\ b_commit b = commit /\ b_binary b = false /\
    Forall2 same_up_to_cr (texts (b_lines b)) merged /\
    forall n l, b_lines b !! n = Some l ->
      (exists j p o, ps !! j = Some p /\ kept_line p n o /\
          (forall i pi, i < j -> ps !! i = Some pi -> added_line pi n) /\ l_commit l = l_commit o)
      \/ ((forall i pi, ps !! i = Some pi -> added_line pi n) /\ l_commit l = commit).
Proof.
  intros Hne Hok Hsame. destruct (apply_all_ok commit ps ds Hok) as (cs & H3 & H4).
  unfold apply_merge.
  assert (existsb b_binary (map mp_blame ps) = false) as ->.
  { clear -Hok. induction Hok as [|p d ps ds Hp _ IH]; [done|]. cbn. rewrite IH. destruct Hp as (->&_). done. }
  assert (existsb d_binary ds = false) as ->.
  { clear -Hok. induction Hok as [|p d ps ds Hp _ IH]; [done|]. cbn. rewrite IH. destruct Hp as (_&->&_). done. }
  rewrite H3. cbn [obind].
  destruct ps as [|p0 ps]; [done|]. destruct cs as [|c0 cs]; [by inversion H4|].
  assert (Hlen : Forall (fun c => length (b_lines c) = length (b_lines c0)) (c0 :: cs)).
  { apply Forall_forall. intros c Hc. apply elem_of_list_lookup in Hc as [i Hi].
    destruct (Forall2_lookup_r _ _ _ _ _ H4 Hi) as (p & Hp & Ha). 
    pose proof (attributed_new_length _ _ _ _ _ Ha) as ->.
    inversion H4 as [|? ? ? ? Ha0]; subst. rewrite (attributed_new_length _ _ _ _ _ Ha0).
    rewrite (Hsame p), (Hsame p0); [done|by constructor|by eapply elem_of_list_lookup_2]. }
  assert (forallb (fun c => Nat.eqb (length (b_lines c)) (length (b_lines c0))) (c0 :: cs) = true) as ->.
  { apply forallb_forall. intros c Hc. apply Nat.eqb_eq. rewrite Forall_forall in Hlen. apply Hlen. by apply elem_of_list_In. }
  eexists. split; [done|]. split; [done|]. cbn [b_commit b_lines b_binary]. split; [done|].
  assert (Hlen2 : Forall (fun c : list line => length c = length (b_lines c0)) (map b_lines (c0 :: cs))).
  { apply Forall_fmap. exact Hlen. }
  split.
  - (* texts *)
    inversion H4 as [|? ? ? ? Ha0]; subst. inversion Hok as [|? ? ? ? Hp0]; subst. destruct Hp0 as (_&_&_&Ht0&_).
    pose proof (attributed_texts_cr _ _ _ _ Ha0 Ht0) as Hf. rewrite (Hsame p0) in Hf by by constructor.
    assert (texts (merge_lines commit (b_lines c0) (map b_lines (c0 :: cs))) = texts (b_lines c0)) as ->; [|done].
    unfold texts. apply list_eq. intros i.
    change (map l_data ?l) with (l_data <$> l). rewrite !list_lookup_fmap. unfold merge_lines. rewrite list_lookup_imap.
    by destruct (b_lines c0 !! i).
  - intros n l Hl. destruct (merge_lines_spec _ _ _ _ _ Hlen2 Hl) as (l0 & Hl0 & _ & Hcase).
    assert (Hpc : forall i pi, (p0 :: ps) !! i = Some pi -> exists ci xi, map b_lines (c0 :: cs) !! i = Some ci /\ ci !! n = Some xi /\
       ((exists o, kept_line pi n o /\ xi = o /\ l_commit xi <> commit) \/ (added_line pi n /\ l_commit xi = commit))).
    { intros i pi Hi. destruct (Forall2_lookup_l _ _ _ _ _ H4 Hi) as (c & Hc & Ha).
      assert (exists xi, b_lines c !! n = Some xi) as [xi Hxi].
      { apply lookup_lt_is_Some_2. rewrite Forall_lookup in Hlen. rewrite (Hlen _ _ Hc). by eapply lookup_lt_Some. }
      exists (b_lines c), xi. split_and!; [|done|].
      { change (map b_lines (c0 :: cs)) with (b_lines <$> (c0 :: cs)). by rewrite list_lookup_fmap, Hc. }
      destruct (attributed_origins _ _ _ _ _ Ha) as [_ Ho]. destruct (Ho _ _ Hxi) as [(o & Ho1 & Ho2)|[Ho1 Ho2]]; [left|by right].
      exists o. split_and!; [done|done|]. subst xi. destruct (Forall2_lookup_l _ _ _ _ _ Hok Hi) as (di & _ & (_&_&_&_&Hnc)). rewrite Forall_forall in Hnc. apply Hnc. by eapply origins_in. }
    destruct Hcase as [(j & c & x & Hj & Hx & Hne' & Hbefore & Hcm)|[Hall Hcm]].
    + left. assert (exists p, (p0 :: ps) !! j = Some p) as [p Hp].
      { apply lookup_lt_is_Some_2. rewrite (Forall2_length _ _ _ H4). apply lookup_lt_Some in Hj.
        by rewrite map_length in Hj. }
      destruct (Hpc _ _ Hp) as (c' & x' & Hc' & Hx' & Hd). rewrite Hj in Hc'. simplify_eq. 
      destruct Hd as [(o & Ho1 & -> & Ho3)|[_ ?]]; [|done].
      exists j, p, o. split_and!; try done. intros i pi Hi Hpi.
      destruct (Hpc _ _ Hpi) as (ci & xi & Hci & Hxi & [(o' & _ & -> & Hne'')|[Ha _]]); [|done].
      destruct Hne''. by eapply Hbefore.
    + right. split; [|done]. intros i pi Hpi.
      destruct (Hpc _ _ Hpi) as (ci & xi & Hci & Hxi & [(o' & _ & -> & Hne'')|[Ha _]]); [|done].
      destruct Hne''. by eapply Hall.
Qed.

Lemma merge_attribution k ps commit merged :
  2 <= k -> ps <> [] -> Forall (merge_parent_ok k commit) ps ->
  (forall p, p ∈ ps -> new_text (mp_script p) = merged) ->
  exists ds b,
    Forall2 (fun p d => parse (render_patch (mp_patch p)) = Ret d) ps ds /\
    apply_merge (map mp_blame ps) ds commit = Ret b /\ b_commit b = commit /\
    Forall2 same_up_to_cr (texts (b_lines b)) merged /\
    forall n l, b_lines b !! n = Some l ->
      (exists j p o, ps !! j = Some p /\ kept_line p n o /\
          (forall i pi, i < j -> ps !! i = Some pi -> added_line pi n) /\ l_commit l = l_commit o)
      \/ ((forall i pi, ps !! i = Some pi -> added_line pi n) /\ l_commit l = commit).
Proof.
  intros Hk Hne Hok Hsame.
  assert (exists ds, Forall2 (fun p d => parse (render_patch (mp_patch p)) = Ret d) ps ds /\ Forall2 (merge_side_ok commit) ps ds)
    as (ds & H1 & H2).
  { clear Hne Hsame. induction Hok as [|p ps Hp _ IH]; [exists []; split; constructor|].
    destruct IH as (ds & H1 & H2). destruct Hp as (Hw & Hs & Hb & Hd & Hc & Hbin & Hl' & Hn).
    assert (Hl : length (b_lines (mp_blame p)) = length (old_text (mp_script p))).
    { apply Forall2_length in Hl'. unfold texts in Hl'. by rewrite map_length in Hl'. }
    destruct (parse_apply_attributed_cr _ _ (mp_tail p) (mp_blame p) commit k Hw Hs Hb Hd Hk Hc Hbin Hl)
      as (d & c & E1 & E2 & _ & _ & E3).
    exists (d :: ds). split; constructor; try done. split_and!; try done; [|by exists c].
    unfold apply in E2. rewrite Hbin in E2. by destruct (d_binary d). }
  destruct (merge_core commit ps ds merged Hne H2 Hsame) as (b & A1 & A2 & _ & A3 & A4). exists ds, b. done.
Qed.

(** ** C08 *)
Lemma apply_preserves h file d commit h' b old v :
  apply_h h file d commit = Ret (h', b) -> deref h old = Some v -> deref h' old = Some v.
Proof. intros H. apply deref_ext. by apply (apply_h_ext _ _ _ _ _ _ H). Qed.
Lemma apply_merge_preserves h ps ds commit h' b old v :
  apply_merge_h h ps ds commit = Ret (h', b) -> deref h old = Some v -> deref h' old = Some v.
Proof. intros H. apply deref_ext. by apply (apply_merge_h_ext _ _ _ _ _ _ H). Qed.

(** ** C09 *)
Lemma blame_eq_equiv :
  (forall a, blame_eq a a = true) /\ (forall a b, blame_eq a b = true -> blame_eq b a = true) /\
  (forall a b c, blame_eq a b = true -> blame_eq b c = true -> blame_eq a c = true).
Proof.
  split_and!; intros *; rewrite ?blame_eq_iff.
  - done.
  - intros [? ?]; by split.
  - intros [? ?] [? ?]; split; congruence.
Qed.
Lemma blame_eq_not_congruence :
  exists a b d c, blame_eq a b = true /\ (exists r, apply a d c = Ret r) /\ (exists m, apply b d c = Panic m).
Proof.
  exists (Blame (B "c1") [] false), (Blame (B "c1") [] true), diff_zero, (B "c2").
  split_and!; [done|by eexists|by eexists].
Qed.

(** ** Heap refinement of ApplyMerge *)
Lemma apply_all_h_refines h ps ds commit vs :
  Forall2 (fun p v => deref h p = Some v) ps vs ->
  match apply_all_h h ps ds commit with
  | Ret (h', bs) => exists cs, apply_all vs ds commit = Ret cs /\ Forall2 (fun b c => deref h' b = Some c) bs cs /\
                     NoDup (hb_arr <$> bs)
  | Err e => apply_all vs ds commit = Err e
  | Panic m => apply_all vs ds commit = Panic m
  end.
Proof.
  intros H. revert h ds H. induction ps as [|p ps IH] in vs |- *; intros h ds H; inversion H as [|? v ? vs' Hp Hps]; subst.
  - cbn. destruct ds; exists []; split_and!; try done; constructor.
  - destruct ds as [|d ds]; [done|]. cbn.
    pose proof (apply_h_refines h p d commit v Hp) as H1.
    destruct (apply_h h p d commit) as [[h1 b]|e|m] eqn:E1; [|by rewrite H1..].
    destruct H1 as (v' & D1 & ->). cbn.
    destruct (apply_h_ext _ _ _ _ _ _ E1) as (X1 & X2 & X3).
    assert (Hps1 : Forall2 (fun p v => deref h1 p = Some v) ps vs').
    { eapply Forall2_impl; [exact Hps|]. cbn. intros. by eapply deref_ext. }
    specialize (IH _ _ ds Hps1).
    destruct (apply_all_h h1 ps ds commit) as [[h2 bs]|e|m] eqn:E2; [|by rewrite IH..].
    destruct IH as (cs & -> & D2 & ND). cbn. destruct (apply_all_h_ext _ _ _ _ _ _ E2) as [Y1 Y2].
    exists (v' :: cs). split_and!; [done| |].
    + constructor; [by eapply deref_ext|done].
    + cbn. constructor; [|done]. intros Hin. apply elem_of_list_fmap in Hin as (b' & Eb & Hb').
      rewrite Forall_forall in Y2. specialize (Y2 _ Hb'). cbn in Y2. lia.
Qed.

Lemma deref_lookup h b v : deref h b = Some v ->
  exists ps, h_arrs h !! hb_arr b = Some ps /\ length ps = length (b_lines v) /\
    forall i l, b_lines v !! i = Some l -> exists p, ps !! i = Some p /\ h_lines h !! p = Some l.
Proof.
  intros H. unfold deref in H. apply bind_Some in H as (ps & H1 & H). apply bind_Some in H as (ls & H2 & H). simplify_eq.
  exists ps. split; [done|]. cbn. apply mapM_Some in H2. split; [by eapply Forall2_length|].
  intros k l Hl. by eapply Forall2_lookup_r in H2.
Qed.

Definition merged_at (commit : bytes) (cs : list blame) (i : nat) (l : line) : line :=
  Line (l_data l) (first_origin commit (omap (fun c => l_commit <$> b_lines c !! i) cs)).

(** State of the result's array and of the other candidates after the lines below [i] were treated. *)
Definition merge_inv (commit : bytes) (c0 : hblame) (cand : list hblame) (v0 : blame) (vs : list blame) (i : nat) (h : heap) : Prop :=
  (exists ps, h_arrs h !! hb_arr c0 = Some ps /\ length ps = length (b_lines v0) /\
     forall k l, b_lines v0 !! k = Some l -> exists p, ps !! k = Some p /\
       h_lines h !! p = Some (if decide (k < i) then merged_at commit (v0 :: vs) k l else l)) /\
  Forall2 (fun c v => exists ps, h_arrs h !! hb_arr c = Some ps /\ length ps = length (b_lines v) /\
     forall k l, b_lines v !! k = Some l -> exists p, ps !! k = Some p /\ h_lines h !! p = Some l) cand vs /\
  Forall (fun c => hb_arr c <> hb_arr c0) cand.

Lemma cand_commits_eq commit c0 cand v0 vs i h :
  merge_inv commit c0 cand v0 vs i h ->
  cand_commits h (c0 :: cand) i = omap (fun c => l_commit <$> b_lines c !! i) (v0 :: vs).
Proof.
  intros ((ps & A1 & A2 & A3) & Hc & _). unfold cand_commits. cbn. rewrite A1.
  assert (Htl : omap (fun c => match h_arrs h !! hb_arr c with
                 | None => None
                 | Some ps => match ps !! i with
                              | None => None
                              | Some p => l_commit <$> h_lines h !! p
                              end
                 end) cand = omap (fun c => l_commit <$> b_lines c !! i) vs).
  { clear -Hc. induction Hc as [|c v cand vs (ps & B1 & B2 & B3) _ IH]; [done|]. cbn. rewrite B1, IH.
    destruct (b_lines v !! i) as [l|] eqn:E.
    - destruct (B3 _ _ E) as (p & -> & ->). done.
    - apply lookup_ge_None in E. rewrite <-B2 in E. by rewrite (lookup_ge_None_2 _ _ E). }
  rewrite Htl. destruct (b_lines v0 !! i) as [l|] eqn:E.
  - destruct (A3 _ _ E) as (p & -> & ->). rewrite decide_False by lia. done.
  - apply lookup_ge_None in E. rewrite <-A2 in E. by rewrite (lookup_ge_None_2 _ _ E).
Qed.

Lemma first_origin_self commit v0 vs i l :
  b_lines v0 !! i = Some l -> first_origin commit (omap (fun c => l_commit <$> b_lines c !! i) (v0 :: vs)) = commit ->
  l_commit l = commit.
Proof.
  intros E H. cbn in H. rewrite E in H. cbn in H. destruct (beq (l_commit l) commit) eqn:Hb; [by apply bool_decide_eq_true in Hb|done].
Qed.

Lemma merge_step_inv commit c0 cand v0 vs i h :
  i < length (b_lines v0) ->
  merge_inv commit c0 cand v0 vs i h -> merge_inv commit c0 cand v0 vs (S i) (merge_step commit c0 (c0 :: cand) h i).
Proof.
  intros Hi Hinv. unfold merge_step. rewrite (cand_commits_eq _ _ _ _ _ _ _ Hinv).
  destruct Hinv as ((ps & A1 & A2 & A3) & Hc & Hd).
  destruct (lookup_lt_is_Some_2 _ _ Hi) as [l Hl]. destruct (A3 _ _ Hl) as (p & P1 & P2). rewrite decide_False in P2 by lia.
  destruct (beq _ commit) eqn:Hb.
  - apply bool_decide_eq_true in Hb. split_and!; [|done|done]. exists ps. split_and!; [done|done|].
    intros k l' Hk. destruct (A3 _ _ Hk) as (p' & Q1 & Q2). exists p'. split; [done|]. rewrite Q2. f_equal.
    destruct (decide (k < i)); [by rewrite decide_True by lia|].
    destruct (decide (k < S i)); [|done]. assert (k = i) as -> by lia. simplify_eq.
    unfold merged_at. rewrite Hb. destruct l as [dt cm]. cbn. f_equal. by apply (first_origin_self commit v0 vs i (Line dt cm)).
  - rewrite A1, P1, P2. cbn [alloc_line fst snd]. unfold write_arr. cbn [h_arrs h_lines].
    set (nl := Line (l_data l) _).
    assert (Hnew : (h_lines h ++ [nl]) !! length (h_lines h) = Some nl).
    { rewrite lookup_app_r by lia. by rewrite Nat.sub_diag. }
    split_and!; [| |done].
    + exists (<[ i := length (h_lines h) ]> ps). cbn. rewrite list_lookup_alter, A1. cbn. rewrite insert_length.
      split_and!; [done|done|]. intros k l' Hk. destruct (decide (k = i)) as [->|Hki].
      * exists (length (h_lines h)). rewrite list_lookup_insert by lia. split; [done|]. rewrite decide_True by lia.
        simplify_eq. done.
      * destruct (A3 _ _ Hk) as (p' & Q1 & Q2). exists p'. rewrite list_lookup_insert_ne by done. split; [done|].
        rewrite (lookup_app_l_Some _ _ _ _ Q2). f_equal.
        destruct (decide (k < i)); [by rewrite decide_True by lia|by rewrite decide_False by lia].
    + rewrite Forall_forall in Hd. apply Forall2_same_length_lookup in Hc as [Hlen Hc].
      apply Forall2_same_length_lookup. split; [done|]. intros k c v Ec Ev.
      destruct (Hc k c v Ec Ev) as (ps' & B1 & B2 & B3). exists ps'. cbn.
      assert (hb_arr c <> hb_arr c0) by (apply Hd; by eapply elem_of_list_lookup_2).
      rewrite list_lookup_alter_ne by done. split_and!; [done|done|].
      intros k' l' Hk'. destruct (B3 _ _ Hk') as (p' & Q1 & Q2). exists p'. split; [done|]. by apply lookup_app_l_Some.
Qed.

Lemma merge_fold_inv commit c0 cand v0 vs n i h :
  i + n = length (b_lines v0) -> merge_inv commit c0 cand v0 vs i h ->
  merge_inv commit c0 cand v0 vs (i + n) (fold_left (merge_step commit c0 (c0 :: cand)) (seq i n) h).
Proof.
  revert i h. induction n as [|n IH]; intros i h Hn Hinv; cbn; [by rewrite Nat.add_0_r|].
  replace (i + S n) with (S i + n) by lia. apply IH; [lia|]. apply merge_step_inv; [lia|done].
Qed.

Lemma apply_merge_h_refines h ps ds commit vs :
  Forall2 (fun p v => deref h p = Some v) ps vs ->
  match apply_merge_h h ps ds commit with
  | Ret (h', b) => exists v', deref h' b = Some v' /\ apply_merge vs ds commit = Ret v'
  | Err e => apply_merge vs ds commit = Err e
  | Panic m => apply_merge vs ds commit = Panic m
  end.
Proof.
  intros H. unfold apply_merge_h, apply_merge.
  assert (existsb hb_binary ps = existsb b_binary vs) as ->.
  { clear -H. induction H as [|p v ps vs Hp _ IH]; [done|]. cbn. rewrite IH. f_equal. unfold deref in Hp.
    apply bind_Some in Hp as (? & _ & Hp). apply bind_Some in Hp as (? & _ & Hp). by simplify_eq. }
  destruct (existsb b_binary vs); [done|]. destruct (existsb d_binary ds); [done|].
  pose proof (apply_all_h_refines h ps ds commit vs H) as HA.
  destruct (apply_all_h h ps ds commit) as [[h1 cand]|e|m] eqn:E; [|by rewrite HA..].
  destruct HA as (cs & -> & HD & HN). cbn [obind].
  destruct HD as [|c0 v0 cand vs' D0 HD]; [done|].
  assert (Hlen : forall c v, deref h1 c = Some v -> arr_len h1 c = length (b_lines v)).
  { intros c v Hc. destruct (deref_lookup _ _ _ Hc) as (q & Q1 & Q2 & _). unfold arr_len. by rewrite Q1. }
  assert (forallb (fun c => Nat.eqb (arr_len h1 c) (arr_len h1 c0)) (c0 :: cand) =
          forallb (fun c => Nat.eqb (length (b_lines c)) (length (b_lines v0))) (v0 :: vs')) as ->.
  { rewrite (Hlen _ _ D0). cbn. rewrite (Hlen _ _ D0). f_equal. clear -HD Hlen.
    induction HD as [|c v cs vs Hc _ IH]; [done|]. cbn. by rewrite (Hlen _ _ Hc), IH. }
  destruct (forallb _ _); [|done].
  assert (Hc0 : hb_commit c0 = commit /\ hb_binary c0 = false).
  { clear -E. destruct ps as [|p ps]; [by destruct ds|]. destruct ds as [|d ds]; [done|]. cbn in E.
    unfold apply_h in E. destruct (hb_binary p); [done|]. destruct (d_binary d); [done|].
    destruct (h_arrs h !! hb_arr p); [|done]. destruct (apply_core _ _); [|done..]. cbn in E.
    destruct (alloc_res _ _ _). cbn in E. destruct (apply_all_h _ ps ds commit) as [[? ?]| |]; [|done..]. cbn in E. by simplify_eq. }
  assert (Hinv : merge_inv commit c0 cand v0 vs' 0 h1).
  { split_and!.
    - destruct (deref_lookup _ _ _ D0) as (q & Q1 & Q2 & Q3). exists q. split_and!; done.
    - eapply Forall2_impl; [exact HD|]. cbn. intros c v Hc. destruct (deref_lookup _ _ _ Hc) as (q & Q1 & Q2 & Q3). eauto.
    - cbn in HN. apply NoDup_cons in HN as [HN _]. apply Forall_forall. intros c Hc Heq. apply HN.
      rewrite <-Heq. by apply elem_of_list_fmap_1. }
  rewrite (Hlen _ _ D0).
  pose proof (merge_fold_inv commit c0 cand v0 vs' (length (b_lines v0)) 0 h1 eq_refl Hinv) as ((q & Q1 & Q2 & Q3) & _ & _).
  cbn [Nat.add] in Q3. eexists. split; [|done]. unfold deref. rewrite Q1. cbn [mbind option_bind].
  destruct Hc0 as [-> ->].
  assert (mapM (fun p => h_lines (fold_left (merge_step commit c0 (c0 :: cand)) (seq 0 (length (b_lines v0))) h1) !! p) q =
          Some (merge_lines commit (b_lines v0) (map b_lines (v0 :: vs')))) as ->; [|done].
  apply mapM_Some. apply Forall2_same_length_lookup. split.
  { unfold merge_lines. by rewrite imap_length. }
  intros k p l Hp Hl. unfold merge_lines in Hl. apply list_lookup_imap_Some in Hl as (l0 & Hl0 & ->).
  destruct (Q3 _ _ Hl0) as (p' & P1 & P2). simplify_eq. rewrite decide_True in P2 by by eapply lookup_lt_Some.
  rewrite P2. unfold merged_at. do 2 f_equal. clear. induction (v0 :: vs') as [|v vs IH]; [done|]. cbn.
  destruct (b_lines v !! k); cbn; by rewrite IH.
Qed.
