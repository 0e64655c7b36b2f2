(** * C11 (graph log), C12, C13: reading and inverting the commit graph *)
From Verif.Model Require Import Base GoStrings GoSort ParentsGraph.
From Verif.Spec Require Import Text GitLog CommitGraph.
From Verif.Proofs Require Import TextLemmas LogParse LogParseMore SortLemmas.
From Coq Require Import Lia.

(** ** Lines separated by newlines *)
Lemma raw_lines_single l : no_nl l -> l <> [] -> raw_lines l = [l].
Proof.
  intros Hn Hl. induction l as [|c l IH]; [done|]. apply not_elem_of_cons in Hn as [Hc Hn].
  cbn [raw_lines]. rewrite bool_decide_eq_false_2 by congruence. destruct l as [|c2 l]; [done|]. by rewrite IH.
Qed.
Lemma raw_lines_join ls : Forall no_nl ls -> Forall (fun l => l <> []) ls -> raw_lines (join [NL] ls) = ls.
Proof.
  induction 1 as [|l ls Hl Hls IH]; intros Hne; [done|]. apply Forall_cons in Hne as [H1 H2].
  destruct ls as [|l2 ls]; [by apply raw_lines_single|]. rewrite join_cons, raw_lines_line by done. by rewrite IH.
Qed.

Lemma hex_no x h : hex_char x = false -> commit_id h -> x ∉ h.
Proof. intros Hx [_ Hh]. by apply hex_not_elem. Qed.
Lemma elem_of_join (x : ascii) sep l : x ∈ join sep l -> x ∈ sep \/ exists s, s ∈ l /\ x ∈ s.
Proof.
  induction l as [|s [|s2 l] IH]; intros H.
  - cbn in H. set_solver.
  - cbn in H. right. exists s. set_solver.
  - rewrite join_cons in H. apply elem_of_app in H as [H|[H|H]%elem_of_app].
    + right. exists s. set_solver.
    + by left.
    + apply IH in H as [?|(s' & ? & ?)]; [by left|]. right. exists s'. set_solver.
Qed.

Lemma graph_line_no x e : commit_id e.1 -> Forall commit_id e.2 -> hex_char x = false -> x <> AT -> x <> SP -> x ∉ graph_line e.
Proof.
  intros H1 H2 Hx ?? H. unfold graph_line in H. apply elem_of_app in H as [H|[H|H]%elem_of_app].
  - by apply (hex_no x e.1).
  - apply elem_of_list_singleton in H. done.
  - apply elem_of_join in H as [H|(s & Hs & H)]; [apply elem_of_list_singleton in H; done|].
    rewrite Forall_forall in H2. by apply (hex_no x s Hx (H2 s Hs)).
Qed.

Lemma no_cr_no_trailing l : CR ∉ l -> no_trailing_cr l.
Proof. intros H u ->. set_solver. Qed.

Lemma pp_line_ok m e : commit_id e.1 -> Forall commit_id e.2 -> pp_line m (graph_line e) = Ret (<[ e.1 := e.2 ]> m).
Proof.
  intros H1 H2. destruct e as [c ps]. cbn [fst snd] in *. unfold pp_line, graph_line. cbn [fst snd app].
  rewrite split_char_cons by by apply (hex_no AT c).
  rewrite split_char_no.
  2:{ intros H. apply elem_of_join in H as [H|(s & Hs & H)]; [apply elem_of_list_singleton in H; done|].
      rewrite Forall_forall in H2. by apply (hex_no AT s eq_refl (H2 s Hs)). }
  do 2 f_equal. destruct ps as [|p ps]; [done|].
  assert (join [SP] (p :: ps) <> []) as Hne.
  { apply Forall_cons in H2 as [[Hp _] _]. destruct p; [done|]. destruct ps; done. }
  destruct (join [SP] (p :: ps)) as [|a r] eqn:E; [done|]. rewrite <-E. apply split_char_join; [done|].
  eapply Forall_impl; [exact H2|]. intros s Hs. by apply (hex_no SP s).
Qed.

Lemma pp_fold h m : Forall (fun e => commit_id e.1 /\ Forall commit_id e.2) h ->
  ofold pp_line m (map graph_line h) = Ret (foldl (fun m e => <[ e.1 := e.2 ]> m) m h).
Proof.
  intros H. revert m. induction H as [|e h [H1 H2] _ IH]; intros m; [done|]. cbn [map ofold].
  rewrite pp_line_ok by done. cbn. by rewrite IH.
Qed.

Lemma foldl_insert_lookup (h : list (bytes * list bytes)) (m : graph) c ps : NoDup h.*1 -> (forall x, x ∈ h.*1 -> m !! x = None) ->
  foldl (fun m e => <[ e.1 := e.2 ]> m) m h !! c = Some ps <-> (c, ps) ∈ h \/ m !! c = Some ps.
Proof.
  revert m. induction h as [|[x xs] h IH]; intros m Hnd Hm; cbn [foldl].
  { set_solver. }
  cbn [fmap list_fmap fst snd] in *. apply NoDup_cons in Hnd as [Hx Hnd]. rewrite IH; [|done|].
  - rewrite elem_of_cons. destruct (decide (c = x)) as [->|Hc].
    + rewrite lookup_insert. split.
      * intros [?|[= <-]]; auto.
      * intros [[[= <-]|?]|Hsome]; auto. rewrite Hm in Hsome by set_solver. done.
    + rewrite lookup_insert_ne by done. split; [intros [?|?]; auto|]. intros [[[=]|?]|?]; auto. done.
  - intros y Hy. rewrite lookup_insert_ne; [|set_solver]. apply Hm. set_solver.
Qed.

Lemma graph_lines_scan h : wf_history h ->
  raw_lines (render_graph h) = map graph_line h /\ map drop_cr (map graph_line h) = map graph_line h.
Proof.
  intros [H _]. split.
  - apply raw_lines_join; apply Forall_forall; intros l (e & -> & He)%elem_of_list_fmap.
    + rewrite Forall_forall in H. destruct (H e He). by apply graph_line_no.
    + rewrite Forall_forall in H. destruct (H e He) as [[? _] _]. unfold graph_line. by destruct e.1.
  - rewrite <-(map_id (map graph_line h)) at 2. apply map_ext_in. intros l Hl. apply elem_of_list_In in Hl.
    apply elem_of_list_fmap in Hl as (e & -> & He). rewrite Forall_forall in H. destruct (H e He).
    apply drop_cr_no_cr, no_cr_no_trailing. by apply graph_line_no.
Qed.

Lemma pp_run_render h : wf_history h -> Forall (fun l => (N.of_nat (length l) < 1000000)%N) (map graph_line h) ->
  exists m, pp_run (render_graph h) = Ret m /\ forall c ps, m !! c = Some ps <-> (c, ps) ∈ h.
Proof.
  intros H Hs. destruct (graph_lines_scan h H) as [E1 E2]. destruct H as [Hw Hnd].
  unfold pp_run, scan. rewrite E1, scan_raw_short by exact Hs. rewrite E2, pp_fold by done. cbn [obind].
  eexists. split; [reflexivity|]. intros c ps. rewrite foldl_insert_lookup; [|done|].
  - rewrite lookup_empty. split; [by intros [?|?]|by left].
  - intros x _. apply lookup_empty.
Qed.

(** An over-long line of a graph log: an error. *)
Lemma pp_run_long h1 e h2 : wf_history (h1 ++ e :: h2) -> (1000000 <= N.of_nat (length (graph_line e)))%N ->
  exists err, pp_run (render_graph (h1 ++ e :: h2)) = Err err.
Proof.
  intros H Hl. destruct (graph_lines_scan _ H) as [E1 E2]. destruct H as [Hw Hnd].
  unfold pp_run, scan. rewrite E1. clear E1. rewrite map_app in *. cbn [map] in *. rewrite map_app in E2.
  apply app_inj_1 in E2 as [E2 _]; [|by rewrite !map_length]. apply Forall_app in Hw as [Hw _].
  assert (exists h1', snd (scan_raw parents_max_line (map graph_line h1 ++ graph_line e :: map graph_line h2)) = true /\
    fst (scan_raw parents_max_line (map graph_line h1 ++ graph_line e :: map graph_line h2)) = map graph_line h1' /\
    Forall (fun e => commit_id e.1 /\ Forall commit_id e.2) h1') as (h1' & S1 & S2 & S3).
  { clear Hnd. induction h1 as [|x h1 IH]; cbn [map app scan_raw].
    - exists []. unfold parents_max_line. rewrite (proj2 (N.leb_le _ _) Hl). done.
    - cbn [map] in E2. injection E2 as Ex E2. apply Forall_cons in Hw as [Hx Hw]. destruct (_ <=? _)%N; [by exists []|].
      destruct (IH Hw E2) as (h1' & I1 & I2 & I3).
      destruct (scan_raw parents_max_line (map graph_line h1 ++ graph_line e :: map graph_line h2)) as [ts er]. cbn in *.
      exists (x :: h1'). split_and!; [done|cbn; by rewrite Ex, I2|by constructor]. }
  destruct (scan_raw _ _) as [ts er]. cbn in S1, S2. subst. rewrite pp_fold by done. cbn. by eexists.
Qed.
Lemma pp_run_all_short d m : pp_run d = Ret m -> Forall (fun l => (N.of_nat (length l) < 1000000)%N) (raw_lines d).
Proof.
  intros H. apply Forall_forall. intros l Hl. apply N.nle_gt. intros Hle.
  assert (snd (scan_raw parents_max_line (raw_lines d)) = true) as E.
  { apply scan_raw_long. apply Exists_exists. by exists l. }
  unfold pp_run, scan in H. destruct (scan_raw _ (raw_lines d)) as [ts e]. cbn in E. subst.
  by destruct (ofold pp_line ∅ ts).
Qed.

(** ** C13 *)
Arguments times : simpl never.
Lemma times_nil x : times x [] = 0.
Proof. done. Qed.
Lemma times_cons x y l : times x (y :: l) = (if decide (y = x) then 1 else 0) + times x l.
Proof. unfold times. rewrite filter_cons. by destruct (decide (y = x)). Qed.
Lemma times_app x l1 l2 : times x (l1 ++ l2) = times x l1 + times x l2.
Proof. unfold times. by rewrite filter_app, app_length. Qed.
Lemma times_perm x l1 l2 : l1 ≡ₚ l2 -> times x l1 = times x l2.
Proof. unfold times. by intros ->. Qed.

Definition times_o (c : bytes) (o : option (list bytes)) : nat := times c (default [] o).

Lemma add_parents_lookup c ps m p x :
  times_o x (foldl (fun (m : graph) p => <[ p := default [] (m !! p) ++ [c] ]> m) m ps !! p) =
  times_o x (m !! p) + (if decide (c = x) then times p ps else 0).
Proof.
  revert m. induction ps as [|q ps IH]; intros m; cbn [foldl].
  - rewrite times_nil. destruct (decide (c = x)); lia.
  - rewrite IH, times_cons. unfold times_o at 1. destruct (decide (q = p)) as [->|Hq].
    + rewrite lookup_insert. cbn. rewrite times_app, times_cons, times_nil. fold (times_o x (m !! p)).
      unfold times_o. destruct (decide (c = x)); lia.
    + rewrite lookup_insert_ne by done. fold (times_o x (m !! p)). unfold times_o. destruct (decide (c = x)); lia.
Qed.
Lemma add_parents_dom c ps m :
  dom (foldl (fun (m : graph) p => <[ p := default [] (m !! p) ++ [c] ]> m) m ps) = dom m ∪ list_to_set ps.
Proof.
  revert m. induction ps as [|q ps IH]; intros m; cbn [foldl]; [set_solver|].
  rewrite IH, dom_insert_L. set_solver.
Qed.

Lemma add_entry_times ch e p x :
  times_o x (add_entry ch e !! p) = times_o x (ch !! p) + (if decide (e.1 = x) then times p e.2 else 0).
Proof.
  unfold add_entry. rewrite add_parents_lookup. f_equal. destruct (ch !! e.1) eqn:E; [done|].
  destruct (decide (e.1 = p)) as [<-|?]; [by rewrite lookup_insert, E|by rewrite lookup_insert_ne].
Qed.
Lemma add_entry_dom ch e : dom (add_entry ch e) = dom ch ∪ {[e.1]} ∪ list_to_set e.2.
Proof.
  unfold add_entry. rewrite add_parents_dom. f_equal. destruct (ch !! e.1) eqn:E.
  - apply elem_of_dom_2 in E. set_solver.
  - rewrite dom_insert_L. set_solver.
Qed.

Lemma fold_times es ch p x :
  times_o x (foldl add_entry ch es !! p) =
  times_o x (ch !! p) + sum_list (map (fun e : bytes * list bytes => if decide (e.1 = x) then times p e.2 else 0) es).
Proof.
  revert ch. induction es as [|e es IH]; intros ch; cbn [foldl map sum_list]; [by rewrite Nat.add_0_r|].
  rewrite IH, add_entry_times. unfold id.
  lia.
Qed.
Lemma fold_dom es ch : dom (foldl add_entry ch es) = dom ch ∪ list_to_set es.*1 ∪ list_to_set (concat es.*2).
Proof.
  revert ch. induction es as [|e es IH]; intros ch; cbn [foldl fmap list_fmap concat]; [set_solver|].
  rewrite IH, add_entry_dom. cbn [list_to_set]. rewrite list_to_set_app_L. set_solver.
Qed.

Lemma sum_unique (es : list (bytes * list bytes)) x (f : list bytes -> nat) ps : NoDup es.*1 -> (x, ps) ∈ es ->
  sum_list (map (fun e : bytes * list bytes => if decide (e.1 = x) then f e.2 else 0) es) = f ps.
Proof.
  induction es as [|[y qs] es IH]; [set_solver|]. cbn. intros [Hy Hnd]%NoDup_cons Hin.
  apply elem_of_cons in Hin as [[= -> ->]|Hin].
  - rewrite decide_True by done. assert (sum_list (map (fun e : bytes * list bytes => if decide (e.1 = y) then f e.2 else 0) es) = 0) as ->; [|lia].
    clear IH Hnd. induction es as [|[z zs] es IH]; [done|]. cbn in *. apply not_elem_of_cons in Hy as [H1 H2].
    rewrite decide_False by done. by apply IH.
  - rewrite decide_False; [by apply IH|]. intros ->. apply Hy. apply elem_of_list_fmap. by exists (x, ps).
Qed.
Lemma sum_none (es : list (bytes * list bytes)) x (f : list bytes -> nat) : x ∉ es.*1 ->
  sum_list (map (fun e : bytes * list bytes => if decide (e.1 = x) then f e.2 else 0) es) = 0.
Proof.
  induction es as [|[z zs] es IH]; [done|]. cbn. intros [H1 H2]%not_elem_of_cons. rewrite decide_False by done. by apply IH.
Qed.

Lemma children_spec (g : graph) es : es ≡ₚ map_to_list g ->
  let ch := children_from_parents es in
  (forall x, is_Some (ch !! x) <-> is_Some (g !! x) \/ exists c, parent g c x) /\
  (forall p l, ch !! p = Some l -> StronglySorted bytes_le l /\ forall c, times c l = times p (parents g c)).
Proof.
  intros Hp. assert (NoDup es.*1) as Hnd by (rewrite Hp; apply NoDup_fst_map_to_list).
  assert (forall x ps, (x, ps) ∈ es <-> g !! x = Some ps) as Hin by (intros x ps; rewrite Hp; apply elem_of_map_to_list).
  intros ch. unfold ch, children_from_parents. clear ch. split.
  - intros x. rewrite lookup_fmap, fmap_is_Some, <-!elem_of_dom, fold_dom, dom_empty_L.
    rewrite !elem_of_union, !elem_of_list_to_set, elem_of_empty.
    assert (x ∈ es.*1 <-> x ∈ dom g) as ->.
    { rewrite elem_of_dom, elem_of_list_fmap. split.
      - intros ([y ps] & -> & H). apply Hin in H. by eexists.
      - intros [ps H]. apply Hin in H. by exists (x, ps). }
    assert (x ∈ concat es.*2 <-> exists c, parent g c x) as ->; [|tauto].
    rewrite elem_of_list_In, in_concat. unfold parent, parents. split.
    + intros (l & Hl & Hx). apply elem_of_list_In in Hl. apply elem_of_list_fmap in Hl as ([y ps] & -> & H).
      apply Hin in H. exists y. rewrite H. by apply elem_of_list_In.
    + intros (c & Hc). destruct (g !! c) as [ps|] eqn:E; cbn in Hc; [|set_solver]. exists ps.
      split; [|by apply elem_of_list_In]. apply elem_of_list_In, elem_of_list_fmap. exists (c, ps). split; [done|]. by apply Hin.
  - intros p l Hl. rewrite lookup_fmap in Hl. apply fmap_Some in Hl as (l0 & Hl0 & ->). split; [apply sort_sorted|].
    intros c. rewrite (times_perm _ _ _ (sort_perm l0)).
    pose proof (fold_times es ∅ p c) as F. unfold times_o in F. rewrite Hl0, lookup_empty in F. cbn in F. rewrite F.
    unfold parents. destruct (g !! c) as [ps|] eqn:E; cbn.
    + apply sum_unique; [done|]. by apply Hin.
    + rewrite times_nil. apply sum_none. intros ([y ps] & -> & H)%elem_of_list_fmap. apply Hin in H. cbn in E. congruence.
Qed.

Lemma times_elem x l : 0 < times x l <-> x ∈ l.
Proof.
  induction l as [|y l IH]; [rewrite times_nil; split; [lia|set_solver]|].
  rewrite times_cons, elem_of_cons, <-IH. destruct (decide (y = x)); [subst|]; split; auto; try lia. intros [?|?]; [congruence|lia].
Qed.
Lemma times_ext_perm l1 l2 : (forall x, times x l1 = times x l2) -> l1 ≡ₚ l2.
Proof.
  revert l2. induction l1 as [|y l1 IH]; intros l2 H.
  - destruct l2 as [|z l2]; [done|]. specialize (H z). rewrite times_nil, times_cons, decide_True in H by done. lia.
  - assert (y ∈ l2) as Hy. { apply times_elem. rewrite <-H, times_cons, decide_True by done. lia. }
    apply elem_of_Permutation in Hy as (l2' & Hp). rewrite Hp. constructor. apply IH. intros x.
    specialize (H x). rewrite (times_perm _ _ _ Hp) in H. rewrite !times_cons in H. lia.
Qed.

Lemma children_order (g : graph) es1 es2 : es1 ≡ₚ map_to_list g -> es2 ≡ₚ map_to_list g ->
  children_from_parents es1 = children_from_parents es2.
Proof.
  intros H1 H2. destruct (children_spec g es1 H1) as [D1 T1], (children_spec g es2 H2) as [D2 T2].
  apply map_eq. intros p. destruct (children_from_parents es1 !! p) as [l1|] eqn:E1, (children_from_parents es2 !! p) as [l2|] eqn:E2; [| | |done].
  - f_equal. destruct (T1 _ _ E1) as [S1 C1], (T2 _ _ E2) as [S2 C2]. apply (StronglySorted_unique bytes_le); [done|done|].
    apply times_ext_perm. intros x. by rewrite C1, C2.
  - assert (is_Some (children_from_parents es2 !! p)) as [? ?] by (apply D2, D1; eauto). congruence.
  - assert (is_Some (children_from_parents es1 !! p)) as [? ?] by (apply D1, D2; eauto). congruence.
Qed.
