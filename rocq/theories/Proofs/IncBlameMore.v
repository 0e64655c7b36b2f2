(** Hunk order, merge attribution, heap behaviour, equality. *)
From Verif.Model Require Import Base GoStrings IncBlame IncBlameHeap.
From Verif.Spec Require Import Text UnifiedDiff Attribution.
From Verif.Proofs Require Import TextLemmas HunkHeader ParsePatch ApplyPatch.
From Coq Require Import Lia.

(** ** C03 *)
Definition key_opt (h : hunk) : option (Z * bytes) :=
  match hk_locs h with [] => None | l :: _ => Some (hl_off l, hk_data h) end.

Lemma omapM_hunk_key hs :
  omapM hunk_key hs = match mapM key_opt hs with Some ks => Ret ks | None => Panic (B "no location in diff hunk") end.
Proof.
  induction hs as [|h hs IH]; [done|]. cbn. rewrite IH. unfold hunk_key, key_opt.
  destruct (hk_locs h) as [|l ls]; cbn; [done|]. by destruct (mapM _ hs).
Qed.

Lemma mapM_perm {A C} (f : A -> option C) l1 l2 :
  l1 ≡ₚ l2 -> forall k1, mapM f l1 = Some k1 -> exists k2, mapM f l2 = Some k2 /\ k1 ≡ₚ k2.
Proof.
  induction 1 as [|x l1 l2 _ IH|x y l|l1 l2 l3 _ IH1 _ IH2]; intros k1 H.
  - apply mapM_Some in H. inversion H; subst. by exists [].
  - apply mapM_Some in H. apply Forall2_cons_inv_l in H as (y & ys & Hy & Hys & ->).
    destruct (IH ys) as (k2 & Hk2 & Hp); [by apply mapM_Some|]. exists (y :: k2).
    split; [apply mapM_Some; constructor; [done|by apply mapM_Some]|by constructor].
  - apply mapM_Some in H. apply Forall2_cons_inv_l in H as (a & ys & Ha & Hys & ->).
    apply Forall2_cons_inv_l in Hys as (b & zs & Hb & Hzs & ->).
    exists (b :: a :: zs). split; [apply mapM_Some; by repeat constructor|by constructor].
  - destruct (IH1 _ H) as (k2 & Hk2 & Hp). destruct (IH2 _ Hk2) as (k3 & Hk3 & Hp3). exists k3. split; [done|]. by rewrite Hp.
Qed.

Definition hunk_offset (h : hunk) : option Z := hl_off <$> head (hk_locs h).

Lemma keys_nodup hs ks : mapM key_opt hs = Some ks -> NoDup (map hunk_offset hs) -> NoDup (map fst ks).
Proof.
  intros Hm Hn. apply mapM_Some in Hm.
  assert (map hunk_offset hs = map (fun k => Some (fst k)) ks) as He.
  { induction Hm as [|h k hs ks Hk _ IH]; [done|]. cbn in *. apply NoDup_cons in Hn as [_ Hn].
    rewrite IH by done. f_equal. unfold key_opt in Hk. unfold hunk_offset. destruct (hk_locs h); [done|]. by simplify_eq. }
  rewrite He in Hn. rewrite <-(map_map fst Some) in Hn. by apply NoDup_fmap_1 in Hn.
Qed.

Lemma apply_core_perm {L} (old : list L) hs1 hs2 :
  hs1 ≡ₚ hs2 -> NoDup (map hunk_offset hs1) -> apply_core old hs1 = apply_core old hs2.
Proof.
  intros Hp Hn. unfold apply_core. rewrite !omapM_hunk_key.
  destruct (mapM key_opt hs1) as [k1|] eqn:H1.
  - destruct (mapM_perm key_opt _ _ Hp _ H1) as (k2 & -> & Hpk). cbn.
    f_equal. apply sorted_keys_unique; [apply sort_hunks_sorted..| |].
    + by rewrite !sort_hunks_perm.
    + rewrite sort_hunks_perm. by eapply keys_nodup.
  - destruct (mapM key_opt hs2) as [k2|] eqn:H2; [|done].
    symmetry in Hp. destruct (mapM_perm key_opt _ _ Hp _ H2) as (k1 & ? & _). congruence.
Qed.

Lemma apply_any_sort {L} (old : list L) hs ks ks' :
  omapM hunk_key hs = Ret ks -> NoDup (map hunk_offset hs) ->
  ks' ≡ₚ ks -> StronglySorted kle ks' -> apply_sorted old ks' = apply_core old hs.
Proof.
  intros Hk Hn Hp Hs. unfold apply_core. rewrite Hk. cbn. f_equal.
  rewrite omapM_hunk_key in Hk. destruct (mapM key_opt hs) eqn:Hm; [|done]. simplify_eq.
  apply sorted_keys_unique; [done|apply sort_hunks_sorted|by rewrite sort_hunks_perm|].
  rewrite Hp. by eapply keys_nodup.
Qed.

(** ** C09 *)
Lemma line_eq_iff a b : line_eq a b = true <-> a = b.
Proof.
  unfold line_eq, beq. rewrite andb_true_iff, !bool_decide_eq_true. destruct a, b; cbn. split; [intros [-> ->]; done|by intros [= -> ->]].
Qed.
Lemma lines_eq_iff a b : lines_eq a b = true <-> a = b.
Proof.
  revert b. induction a as [|x a IH]; intros [|y b]; cbn; try done.
  rewrite andb_true_iff, line_eq_iff, IH. split; [by intros [-> ->]|by intros [= -> ->]].
Qed.
Lemma blame_eq_iff a b : blame_eq a b = true <-> b_commit a = b_commit b /\ b_lines a = b_lines b.
Proof. unfold blame_eq, beq. by rewrite andb_true_iff, bool_decide_eq_true, lines_eq_iff. Qed.

(** ** C07 *)

Lemma attributed_origins R c es old new : attributed R c es old new ->
  length (origins es old) = length new /\
  forall n l, new !! n = Some l ->
    (exists o, origins es old !! n = Some (Some o) /\ l = o) \/
    (origins es old !! n = Some None /\ l_commit l = c).
Proof.
  induction 1 as [|t l es old new _ [IHl IH]|t l es old new _ [IHl IH]|t t' es old new _ _ [IHl IH]]; cbn.
  - split; [done|]. intros n l. by rewrite lookup_nil.
  - split; [lia|]. intros [|n] x Hx; cbn in *; [simplify_eq; left; by eexists|]. by apply IH.
  - split; [lia|]. exact IH.
  - split; [lia|]. intros [|n] x Hx; cbn in *; [simplify_eq; by right|]. by apply IH.
Qed.

Lemma attributed_new_length R c es old new : attributed R c es old new -> length new = length (new_text es).
Proof. induction 1; cbn; lia. Qed.

Lemma first_origin_spec commit cs :
  (exists j c, cs !! j = Some c /\ c <> commit /\ (forall i ci, i < j -> cs !! i = Some ci -> ci = commit)
               /\ first_origin commit cs = c) \/
  ((forall i ci, cs !! i = Some ci -> ci = commit) /\ first_origin commit cs = commit).
Proof.
  induction cs as [|c cs IH]; cbn.
  - right. split; [|done]. intros i ci. by rewrite lookup_nil.
  - unfold beq. case_bool_decide as Hc.
    + destruct IH as [(j & c' & H1 & H2 & H3 & H4)|[H1 H2]].
      * left. exists (S j), c'. split_and!; try done. intros [|i] ci Hi Hl; cbn in *; [by simplify_eq|]. eapply H3; [|done]. lia.
      * right. split; [|done]. intros [|i] ci Hl; cbn in *; [by simplify_eq|]. by eapply H1.
    + left. exists 0, c. split_and!; try done. intros i ci Hi. lia.
Qed.

Lemma omap_lookup_all {A C} (f : A -> option C) (l : list A) (g : A -> C) :
  Forall (fun x => f x = Some (g x)) l -> omap f l = map g l.
Proof. induction 1 as [|x l Hx _ IH]; [done|]. cbn. by rewrite Hx, IH. Qed.

(** A merge parent: its blame, the script that turns its version into the merged one, and the candidate. *)
Lemma merge_lines_spec commit (c0 : list line) (cands : list (list line)) n l :
  Forall (fun c => length c = length c0) cands ->
  merge_lines commit c0 cands !! n = Some l ->
  exists l0, c0 !! n = Some l0 /\ l_data l = l_data l0 /\
   ((exists j c x, cands !! j = Some c /\ c !! n = Some x /\ l_commit x <> commit /\
       (forall i ci xi, i < j -> cands !! i = Some ci -> ci !! n = Some xi -> l_commit xi = commit) /\
       l_commit l = l_commit x) \/
    ((forall i ci xi, cands !! i = Some ci -> ci !! n = Some xi -> l_commit xi = commit) /\ l_commit l = commit)).
Proof.
  intros Hlen Hl. unfold merge_lines in Hl. rewrite list_lookup_imap in Hl.
  destruct (c0 !! n) as [l0|] eqn:H0; [|done]. cbn in Hl. simplify_eq. exists l0. cbn. split_and!; [done|done|].
  assert (Hn : n < length c0) by (by apply lookup_lt_Some in H0).
  set (g := fun c : list line => l_commit (default l0 (c !! n))).
  assert (Hom : omap (fun c : list line => l_commit <$> c !! n) cands = map g cands).
  { apply omap_lookup_all. eapply Forall_impl; [exact Hlen|]. intros c Hc. cbn in Hc.
    destruct (c !! n) eqn:He; [unfold g; by rewrite He|]. apply lookup_ge_None in He. lia. }
  rewrite Hom. destruct (first_origin_spec commit (map g cands)) as [(j & cm & H1 & H2 & H3 & ->)|[H1 ->]].
  - left. change (map g cands) with (g <$> cands) in *. rewrite list_lookup_fmap in H1. destruct (cands !! j) as [c|] eqn:Hj; [|done]. cbn in H1. simplify_eq.
    assert (exists x, c !! n = Some x) as [x Hx].
    { apply lookup_lt_is_Some_2. rewrite Forall_lookup in Hlen. rewrite (Hlen _ _ Hj). done. }
    exists j, c, x. unfold g in *. rewrite Hx in *. cbn in *. split_and!; try done.
    intros i ci xi Hi Hci Hxi. apply (H3 i); [done|]. rewrite list_lookup_fmap, Hci. cbn. by rewrite Hxi.
  - right. split; [|done]. intros i ci xi Hci Hxi. apply (H1 i). change (map g cands) with (g <$> cands). rewrite list_lookup_fmap, Hci. cbn. unfold g. by rewrite Hxi.
Qed.

(** ** C08: heap *)
Definition heap_ext (h h' : heap) : Prop := h_lines h `prefix_of` h_lines h' /\ h_arrs h `prefix_of` h_arrs h'.
Lemma heap_ext_refl h : heap_ext h h.
Proof. split; done. Qed.
Lemma heap_ext_trans a b c : heap_ext a b -> heap_ext b c -> heap_ext a c.
Proof. intros [H1 H2] [H3 H4]. split; by etransitivity. Qed.
#[global] Instance heap_ext_preorder : PreOrder heap_ext.
Proof. split; [exact heap_ext_refl|exact heap_ext_trans]. Qed.

Lemma alloc_res_ext h commit res h' ps : alloc_res h commit res = (h', ps) -> heap_ext h h' /\ h_arrs h' = h_arrs h.
Proof.
  revert h h' ps. induction res as [|[p|d] res IH]; intros h h' ps H; cbn in H.
  - simplify_eq. by split.
  - destruct (alloc_res h commit res) as [h1 ps1] eqn:E. simplify_eq. eauto.
  - destruct (alloc_res _ commit res) as [h1 ps1] eqn:E. simplify_eq. destruct (IH _ _ _ E) as [H1 H2]. cbn in *.
    split; [|done]. etransitivity; [|exact H1]. split; [by eexists|done].
Qed.

Lemma apply_h_ext h file d commit h' b : apply_h h file d commit = Ret (h', b) ->
  heap_ext h h' /\ hb_arr b = length (h_arrs h) /\ length (h_arrs h') = S (length (h_arrs h)).
Proof.
  unfold apply_h. destruct (hb_binary file); [done|]. destruct (d_binary d); [done|].
  destruct (h_arrs h !! hb_arr file) as [ptrs|]; [|done].
  destruct (apply_core ptrs (d_hunks d)) as [res| |]; [|done..]. cbn [obind].
  destruct (alloc_res h commit res) as [h1 ps] eqn:E. cbn. intros [= <- <-].
  destruct (alloc_res_ext _ _ _ _ _ E) as [H1 H2]. cbn. rewrite H2, app_length. split_and!; try done; [|cbn; lia].
  etransitivity; [exact H1|]. split; [done|]. rewrite H2. by eexists.
Qed.

Lemma apply_all_h_ext h ps ds commit h' bs : apply_all_h h ps ds commit = Ret (h', bs) ->
  heap_ext h h' /\ Forall (fun b => length (h_arrs h) <= hb_arr b) bs.
Proof.
  revert h ds h' bs. induction ps as [|p ps IH]; intros h [|d ds] h' bs H; cbn in H; simplify_eq; try by split.
  destruct (apply_h h p d commit) as [[h1 b]| |] eqn:E1; [|done..]. cbn in H.
  destruct (apply_all_h h1 ps ds commit) as [[h2 bs']| |] eqn:E2; [|done..]. cbn in H. simplify_eq.
  destruct (apply_h_ext _ _ _ _ _ _ E1) as (H1 & H2 & H3). destruct (IH _ _ _ _ E2) as [H4 H5].
  split; [by etransitivity|]. constructor; [lia|]. eapply Forall_impl; [exact H5|]. cbn. intros. lia.
Qed.

Lemma prefix_alter {A} (f : A -> A) (a : nat) (l1 l2 : list A) :
  l1 `prefix_of` l2 -> length l1 <= a -> l1 `prefix_of` alter f a l2.
Proof.
  intros [k ->] Ha. exists (alter f (a - length l1) k).
  replace a with (length l1 + (a - length l1)) at 1 by lia. by rewrite alter_app_r.
Qed.

Lemma merge_step_ext commit c0 cand h0 h i :
  heap_ext h0 h -> length (h_arrs h0) <= hb_arr c0 -> heap_ext h0 (merge_step commit c0 cand h i).
Proof.
  intros Hx Ha. unfold merge_step. destruct (beq _ _); [done|].
  destruct (h_arrs h !! hb_arr c0) as [ps|]; [|done]. destruct (ps !! i) as [p|]; [|done].
  destruct (h_lines h !! p) as [l|]; [|done]. destruct Hx as [H1 H2]. split; cbn.
  - etransitivity; [exact H1|by eexists].
  - by apply prefix_alter.
Qed.

Lemma apply_merge_h_ext h ps ds commit h' b : apply_merge_h h ps ds commit = Ret (h', b) -> heap_ext h h'.
Proof.
  unfold apply_merge_h. destruct (existsb _ ps); [done|]. destruct (existsb _ ds); [done|].
  destruct (apply_all_h h ps ds commit) as [[h1 cand]| |] eqn:E; [|done..]. cbn [obind].
  destruct cand as [|c0 cand]; [done|]. destruct (forallb _ _); [|done]. intros [= <- <-].
  destruct (apply_all_h_ext _ _ _ _ _ _ E) as [Hx Hc]. apply Forall_cons_1 in Hc as [Hc _].
  generalize (seq 0 (arr_len h1 c0)) as is. intros is. revert h1 Hx E. 
  assert (Hgen : forall h1, heap_ext h h1 -> heap_ext h (fold_left (merge_step commit c0 (c0 :: cand)) is h1)).
  { induction is as [|i is IH]; intros h1 Hx; [done|]. cbn. apply IH. by apply merge_step_ext. }
  intros h1 Hx _. by apply Hgen.
Qed.

Lemma mapM_lookup_ext (h h' : heap) ps ls :
  heap_ext h h' -> mapM (fun p => h_lines h !! p) ps = Some ls -> mapM (fun p => h_lines h' !! p) ps = Some ls.
Proof.
  intros [Hx _] H. apply mapM_Some. apply mapM_Some in H. eapply Forall2_impl; [exact H|]. cbn. intros p l Hp.
  by eapply prefix_lookup.
Qed.
Lemma deref_ext h h' b v : heap_ext h h' -> deref h b = Some v -> deref h' b = Some v.
Proof.
  intros Hx. unfold deref. intros H. apply bind_Some in H as (ps & H1 & H). apply bind_Some in H as (ls & H2 & H3).
  rewrite (prefix_lookup _ _ _ _ H1 (proj2 Hx)). cbn. rewrite (mapM_lookup_ext _ _ _ _ Hx H2). done.
Qed.

(** Naturality of the core in the type of lines. *)
Definition map_sum {L M} (f : L -> M) (x : L + bytes) : M + bytes := match x with inl a => inl (f a) | inr d => inr d end.
Definition map_apst {L M} (f : L -> M) (s : apst L) : apst M := Apst (map (map_sum f) (ap_res s)) (ap_idx s).
Lemma copy_range_map {L M} (f : L -> M) old s a b :
  copy_range (map f old) (map_apst f s) a b = omap_o (map_apst f) (copy_range old s a b).
Proof.
  unfold copy_range. rewrite map_length. destruct (_ && _ && _); [|done]. cbn. unfold map_apst. cbn. do 2 f_equal.
  rewrite map_app. f_equal. change (map f old) with (f <$> old). rewrite <-fmap_drop, <-fmap_take, !map_map. done.
Qed.
Lemma apply_line_map {L M} (f : L -> M) old s b :
  apply_line (map f old) (map_apst f s) b = omap_o (map_apst f) (apply_line old s b).
Proof.
  unfold apply_line. destruct b as [|op data]; [done|]. 
  destruct (_ || _).
  - change (map f old) with (f <$> old). rewrite list_lookup_fmap. cbn [map_apst ap_idx ap_res].
    destruct (old !! ap_idx s); [|done]. cbn. unfold map_apst. cbn. by rewrite map_app.
  - case_bool_decide; [done|]. case_bool_decide; [cbn; unfold map_apst; cbn; by rewrite map_app|].
    case_bool_decide; [|done]. by destruct (beq _ _).
Qed.
Lemma ofold_map {S T A} (f : S -> A -> outcome S) (g : T -> A -> outcome T) (m : S -> T) l s :
  (forall s x, g (m s) x = omap_o m (f s x)) -> ofold g (m s) l = omap_o m (ofold f s l).
Proof.
  intros H. revert s. induction l as [|x l IH]; intros s; [done|]. cbn. rewrite H. destruct (f s x); cbn; auto.
Qed.
Lemma apply_hunk_map {L M} (f : L -> M) old s h :
  apply_hunk (map f old) (map_apst f s) h = omap_o (map_apst f) (apply_hunk old s h).
Proof.
  unfold apply_hunk. cbv zeta. cbn [map_apst ap_idx].
  change {| ap_res := map (map_sum f) (ap_res s); ap_idx := ap_idx s |} with (map_apst f s).
  set (j := if (fst h - 1 =? -1)%Z then 0%Z else (fst h - 1)%Z). 
  rewrite copy_range_map. destruct (copy_range old s _ j) as [s1| |]; [|done..]. cbn [omap_o obind].
  destruct (scan max_line (snd h)) as [ts e].
  change {| ap_res := ap_res (map_apst f s1); ap_idx := Z.to_nat j |} with (map_apst f (Apst (ap_res s1) (Z.to_nat j))).
  rewrite (ofold_map (apply_line old) (apply_line (map f old)) (map_apst f)) by (intros; apply apply_line_map).
  destruct (ofold _ _ ts); [|done..]. cbn. by destruct e.
Qed.
Lemma apply_core_map {L M} (f : L -> M) old hs :
  apply_core (map f old) hs = omap_o (map (map_sum f)) (apply_core old hs).
Proof.
  unfold apply_core. destruct (omapM hunk_key hs) as [ks| |]; [|done..]. cbn [obind]. unfold apply_sorted.
  change (@Apst M [] 0) with (map_apst f (@Apst L [] 0)).
  rewrite (ofold_map (apply_hunk old) (apply_hunk (map f old)) (map_apst f)) by (intros; apply apply_hunk_map).
  destruct (ofold _ _ (sort_hunks ks)) as [s| |]; [|done..]. cbn [obind omap_o]. rewrite map_length, copy_range_map.
  cbn [map_apst ap_idx]. destruct (copy_range old s _ _); done.
Qed.

Lemma map_lookup_default h ps ls : mapM (fun p => h_lines h !! p) ps = Some ls ->
  ls = map (fun p => default (Line [] []) (h_lines h !! p)) ps.
Proof.
  intros H. apply mapM_Some in H. induction H as [|p l ps ls Hp _ IH]; [done|]. cbn. by rewrite Hp, <-IH.
Qed.
Lemma alloc_res_deref h commit res h' ps :
  alloc_res h commit res = (h', ps) ->
  Forall (fun x => match x with inl p => is_Some (h_lines h !! p) | inr _ => True end) res ->
  mapM (fun p => h_lines h' !! p) ps =
    Some (map (fun x => resolve_line commit (map_sum (fun p => default (Line [] []) (h_lines h !! p)) x)) res).
Proof.
  revert h h' ps. induction res as [|[p|d] res IH]; intros h h' ps H Hf; cbn in H.
  - simplify_eq. done.
  - destruct (alloc_res h commit res) as [h1 ps1] eqn:E. simplify_eq. apply Forall_cons_1 in Hf as [[l Hl] Hf].
    destruct (alloc_res_ext _ _ _ _ _ E) as [[Hx _] _]. cbn.
    rewrite (prefix_lookup _ _ _ _ Hl Hx). cbn. rewrite (IH _ _ _ E Hf). cbn. by rewrite Hl.
  - destruct (alloc_res _ commit res) as [h1 ps1] eqn:E. simplify_eq. apply Forall_cons_1 in Hf as [_ Hf].
    destruct (alloc_res_ext _ _ _ _ _ E) as [[Hx _] _]. cbn in Hx.
    assert (Hl : (h_lines h ++ [Line d commit]) !! length (h_lines h) = Some (Line d commit)).
    { rewrite lookup_app_r by lia. by rewrite Nat.sub_diag. }
    cbn. rewrite (prefix_lookup _ _ _ _ Hl Hx). cbn.
    rewrite (IH _ _ _ E).
    + cbn. do 2 f_equal. apply map_ext_in. intros [q|q] Hq; [|done]. cbn.
      rewrite Forall_forall in Hf. apply elem_of_list_In in Hq. destruct (Hf _ Hq) as [l' Hl'].
      rewrite Hl'. by rewrite (lookup_app_l_Some _ _ _ _ Hl').
    + eapply Forall_impl; [exact Hf|]. intros [q|q]; [|done]. intros [l' Hl']. exists l'. by apply lookup_app_l_Some.
Qed.

(** All pointers of the core's result come from the input. *)
Lemma apply_core_incl {L} (P : L -> Prop) old hs res :
  apply_core old hs = Ret res -> Forall P old -> Forall (fun x => match x with inl p => P p | inr _ => True end) res.
Proof.
  intros H HP.
  (* map every line to itself paired with a proof-irrelevant tag: use naturality with a sigma type *)
  assert (exists old' : list (sig P), map proj1_sig old' = old) as [old' <-].
  { clear H. induction HP as [|x l Hx _ [l' IH]]; [by exists []|]. exists (exist _ x Hx :: l'). cbn. by rewrite IH. }
  rewrite apply_core_map in H. destruct (apply_core old' hs) as [res'| |]; [|done..]. cbn in H. simplify_eq.
  apply Forall_fmap. apply Forall_forall. intros [[p Hp]|d] _; cbn; done.
Qed.

Lemma apply_h_refines h file d commit v :
  deref h file = Some v ->
  match apply_h h file d commit with
  | Ret (h', b) => exists v', deref h' b = Some v' /\ apply v d commit = Ret v'
  | Err e => apply v d commit = Err e
  | Panic m => apply v d commit = Panic m
  end.
Proof.
  intros Hd. unfold deref in Hd. apply bind_Some in Hd as (ps & H1 & Hd). apply bind_Some in Hd as (ls & H2 & Hd). simplify_eq.
  unfold apply_h, apply. cbn [b_binary b_lines]. destruct (hb_binary file); [done|]. destruct (d_binary d); [done|].
  rewrite H1. pose proof (map_lookup_default _ _ _ H2) as Hls. 
  set (f := fun p => default (Line [] []) (h_lines h !! p)) in Hls.
  rewrite Hls. rewrite (apply_core_map f). destruct (apply_core ps (d_hunks d)) as [res| |] eqn:Ec; [|done..].
  cbn [obind omap_o]. destruct (alloc_res h commit res) as [h1 ps1] eqn:Ea. cbn.
  assert (Hf : Forall (fun x => match x with inl p => is_Some (h_lines h !! p) | inr _ => True end) res).
  { eapply (apply_core_incl (fun p => is_Some (h_lines h !! p))); [exact Ec|].
    apply mapM_Some in H2. clear -H2. induction H2; constructor; [by eexists|done]. }
  pose proof (alloc_res_deref _ _ _ _ _ Ea Hf) as Hm.
  eexists. unfold deref. cbn [h_arrs hb_arr]. rewrite lookup_app_r by lia. rewrite Nat.sub_diag. cbn.
  rewrite Hm. cbn. split; [done|]. by rewrite map_map.
Qed.
