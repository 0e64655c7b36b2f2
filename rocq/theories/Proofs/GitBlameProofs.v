(** * Parsing blame output: proofs for C55 *)
From Verif.Model Require Import Base GoStrings IncBlame GitBlame.
From Verif.Spec Require Import Text GitLog Porcelain.
From Verif.Proofs Require Import TextLemmas LogParse.
From Coq Require Import Lia.

Lemma add_meta_ok kv m : wf_meta kv -> add_meta (meta_text kv) m = <[ kv.1 := default [] kv.2 ]> m.
Proof.
  intros (H1 & H2 & _). destruct kv as [k [v|]]; unfold add_meta, meta_text; cbn in *; change (B " ") with [SP].
  - rewrite cut_char_some by done. done.
  - rewrite cut_char_none by done. done.
Qed.
Lemma meta_first kv : wf_meta kv -> exists c l, meta_text kv = c :: l /\ c <> TAB.
Proof.
  intros (H1 & _ & _ & H4 & _). destruct kv as [[|c k] v]; [done|]. cbn in *. apply not_elem_of_cons in H4 as [H4 _].
  unfold meta_text. cbn. destruct v; eexists c, _; (split; [reflexivity|congruence]).
Qed.
Lemma parse_metas ms rest h m0 metas acc : Forall wf_meta ms ->
  parse_lines (map meta_text ms ++ rest) (Some (h, m0)) metas acc = parse_lines rest (Some (h, foldl (fun m kv => <[ kv.1 := default [] kv.2 ]> m) m0 ms)) metas acc.
Proof.
  intros H. revert m0. induction H as [|kv ms Hkv _ IH]; intros m0; [done|]. cbn [map app foldl].
  destruct (meta_first kv Hkv) as (c & l & E & Hc). cbn [parse_lines]. rewrite E. rewrite bool_decide_eq_false_2 by done. rewrite <- E, (add_meta_ok kv m0 Hkv). apply IH.
Qed.
Lemma foldl_map (ms : list (bytes * option bytes)) (m0 : gmap bytes bytes) : NoDup (map fst ms) ->
  foldl (fun m kv => <[ kv.1 := default [] kv.2 ]> m) m0 ms = list_to_map (map (fun kv => (kv.1, default [] kv.2)) ms) ∪ m0.
Proof.
  revert m0. induction ms as [|[k v] ms IH]; intros m0 Hn; [cbn; by rewrite (left_id_L ∅ _)|]. cbn in Hn. apply NoDup_cons in Hn as [Hk Hn]. cbn [foldl map]. rewrite IH by done. cbn [list_to_map foldr]. cbn.
  rewrite <- insert_union_l, <- insert_union_r; [done|]. apply not_elem_of_list_to_map. intros Hx. apply Hk.
  apply elem_of_list_fmap in Hx as ((k' & v') & E & Hx). cbn in E. subst k'.
  change (map (λ kv : bytes * option bytes, (kv.1, default [] kv.2)) ms) with ((λ kv : bytes * option bytes, (kv.1, default [] kv.2)) <$> ms) in Hx.
  apply elem_of_list_fmap in Hx as ([k2 v2] & [= -> ->] & Hx). change (k2 ∈ (fst <$> ms)). apply elem_of_list_fmap. by exists (k2, v2).
Qed.
Lemma data_empty p : data_of p = ∅ <-> po_meta p = [].
Proof.
  unfold data_of. destruct (po_meta p) as [|[k v] l]; [done|]. split; [|done]. cbn. intros H. exfalso. pose proof (f_equal (lookup k) H) as Hx.
  rewrite lookup_insert, lookup_empty in Hx. done.
Qed.

(** What comes out. *)
Fixpoint lines_out (metas : gmap bytes (gmap bytes bytes)) (ls : list porcelain) : list pline :=
  match ls with
  | [] => []
  | p :: ls =>
      if decide (data_of p = ∅) then PLine (po_commit p) (po_text p) (default ∅ (metas !! po_commit p)) :: lines_out metas ls
      else PLine (po_commit p) (po_text p) (data_of p) :: lines_out (<[ po_commit p := data_of p ]> metas) ls
  end.
Lemma header_commit p : wf_porcelain p -> exists c l ps, po_commit p ++ po_numbers p = c :: l /\ split_char SP (po_commit p ++ po_numbers p) = po_commit p :: ps.
Proof.
  intros ([H1 H2] & Hnum & _). assert (Hsp : SP ∉ po_commit p).
  { intros Hin. rewrite forallb_forall in H2. apply elem_of_list_In in Hin. specialize (H2 _ Hin). vm_compute in H2. discriminate H2. }
  assert (exists c h, po_commit p = c :: h) as (c & h & E) by (destruct (po_commit p); [done|by eexists _, _]). destruct Hnum as [->|[s ->]].
  - rewrite app_nil_r. exists c, h, []. split; [done|]. by rewrite split_char_no.
  - exists c, (h ++ SP :: s), (split_char SP s). split; [by rewrite E|]. by rewrite split_char_cons.
Qed.
Lemma parse_all ls metas acc : Forall wf_porcelain ls -> parse_lines (concat (map porcelain_lines ls) ++ [[]]) None metas acc = Ret (acc ++ lines_out metas ls).
Proof.
  intros H. revert metas acc. induction H as [|p ls Hp _ IH]; intros metas acc; [cbn; by rewrite app_nil_r|].
  cbn [map concat]. unfold porcelain_lines at 1. rewrite <- !app_assoc. destruct (header_commit p Hp) as (c & l & ps & Ec & Es). cbn [app parse_lines].
  rewrite bool_decide_eq_false_2 by (intros [Hx _]; by rewrite Ec in Hx). rewrite Es.
  destruct Hp as (_ & _ & _ & Hm & Hn & _). rewrite parse_metas by exact Hm. rewrite (foldl_map _ ∅ Hn), (right_id_L ∅ _). change (list_to_map (map (λ kv : bytes * option bytes, (kv.1, default [] kv.2)) (po_meta p))) with (data_of p).
  cbn [parse_lines lines_out]. rewrite bool_decide_eq_true_2 by done. case_decide as E1; case_decide as E2; [|by destruct E2|by destruct E1|]; rewrite IH, <- app_assoc; cbn [app]; reflexivity.
Qed.
Lemma no_nl_lines ls : Forall wf_porcelain ls -> Forall (fun s => NL ∉ s) (concat (map porcelain_lines ls)).
Proof.
  induction 1 as [|p ls Hp _ IH]; [constructor|]. cbn [map concat]. apply Forall_app. split; [|exact IH]. destruct Hp as (Hc & _ & Hnum & Hm & _ & Ht). unfold porcelain_lines.
  apply Forall_app. split; [|apply Forall_app; split].
  - constructor; [|constructor]. apply not_elem_of_app. split; [|exact Hnum]. destruct Hc as [_ Hc]. intros Hin. rewrite forallb_forall in Hc. apply elem_of_list_In in Hin.
    specialize (Hc _ Hin). vm_compute in Hc. discriminate Hc.
  - apply Forall_forall. intros s Hs. change (map meta_text (po_meta p)) with (meta_text <$> po_meta p) in Hs. apply elem_of_list_fmap in Hs as ([k v] & -> & Hin).
    rewrite Forall_forall in Hm. destruct (Hm _ Hin) as (_ & _ & H3 & _ & H5). unfold meta_text. cbn in *. destruct v; [|done]. apply not_elem_of_app. split; [done|]. apply not_elem_of_cons. split; [discriminate|done].
  - constructor; [|constructor]. apply not_elem_of_cons. split; [discriminate|done].
Qed.
Lemma split_unlines ls : Forall (fun s => NL ∉ s) ls -> split_char NL (unlines ls) = ls ++ [[]].
Proof. unfold unlines. induction 1 as [|s l Hs _ IH]; [done|]. cbn [map concat]. rewrite <- app_assoc. cbn [app]. rewrite split_char_cons by done. by rewrite IH. Qed.
Lemma parse_render ls : Forall wf_porcelain ls -> parse_output (render_porcelain ls) = Ret (lines_out ∅ ls).
Proof. intros H. unfold parse_output, render_porcelain. rewrite split_unlines by by apply no_nl_lines. by apply parse_all. Qed.

Lemma out_basic metas ls : map (fun l => (pl_content l, pl_commit l)) (lines_out metas ls) = map (fun p => (po_text p, po_commit p)) ls.
Proof. revert metas. induction ls as [|p ls IH]; intros metas; [done|]. cbn. destruct (decide _); cbn; by rewrite IH. Qed.
Lemma out_length metas ls : length (lines_out metas ls) = length ls.
Proof. pose proof (f_equal length (out_basic metas ls)) as H. by rewrite !map_length in H. Qed.
(** Line [i] of a commit whose data was last printed with line [j]. *)
Lemma out_own metas ls i p r : ls !! i = Some p -> lines_out metas ls !! i = Some r -> po_meta p <> [] -> pl_meta r = data_of p.
Proof.
  revert metas i. induction ls as [|q ls IH]; intros metas i Hi Hr Hne; [done|]. destruct i as [|i].
  - injection Hi as ->. cbn in Hr. rewrite decide_False in Hr by (by rewrite data_empty). by injection Hr as <-.
  - cbn in Hr. destruct (decide _); by eapply IH.
Qed.
Lemma out_none metas ls i p r : ls !! i = Some p -> lines_out metas ls !! i = Some r -> po_meta p = [] ->
  (forall j q, j < i -> ls !! j = Some q -> po_commit q = po_commit p -> po_meta q = []) -> pl_meta r = default ∅ (metas !! po_commit p).
Proof.
  revert metas i. induction ls as [|q ls IH]; intros metas i Hi Hr He Hno; [done|]. destruct i as [|i].
  - injection Hi as ->. cbn in Hr. rewrite decide_True in Hr by (by rewrite data_empty). by injection Hr as <-.
  - cbn in Hr. assert (Hno' : forall j q0, j < i -> ls !! j = Some q0 -> po_commit q0 = po_commit p -> po_meta q0 = []) by (intros j q0 Hj; apply (Hno (S j)); lia).
    destruct (decide (data_of q = ∅)) as [E|E]; [by eapply IH|]. rewrite (IH _ _ Hi Hr He Hno'). rewrite lookup_insert_ne; [done|].
    intros Heq. apply E, data_empty. apply (Hno 0 q); [lia|done|done].
Qed.
Lemma out_earlier metas ls i j p q r : ls !! i = Some p -> lines_out metas ls !! i = Some r -> po_meta p = [] ->
  j < i -> ls !! j = Some q -> po_commit q = po_commit p -> po_meta q <> [] ->
  (forall k q', j < k < i -> ls !! k = Some q' -> po_commit q' = po_commit p -> po_meta q' = []) -> pl_meta r = data_of q.
Proof.
  revert metas i j. induction ls as [|x ls IH]; intros metas i j Hi Hr He Hj Hq Hc Hm Hno; [done|]. destruct i as [|i]; [lia|]. destruct j as [|j].
  - injection Hq as ->. cbn in Hr. rewrite decide_False in Hr by (by rewrite data_empty). change (ls !! i = Some p) in Hi. change (lines_out (<[po_commit q:=data_of q]> metas) ls !! i = Some r) in Hr. erewrite out_none; [|exact Hi|exact Hr|exact He|].
    + by rewrite <- Hc, lookup_insert.
    + intros k q' Hk Hq'. apply (Hno (S k)); [lia|done].
  - cbn in Hr. assert (Hno' : forall k q', j < k < i -> ls !! k = Some q' -> po_commit q' = po_commit p -> po_meta q' = []) by (intros k q' Hk; apply (Hno (S k)); lia).
    destruct (decide (data_of x = ∅)); eapply (IH _ i j); try done; lia.
Qed.
Lemma out_once ls i p r : printed_once ls -> ls !! i = Some p -> lines_out ∅ ls !! i = Some r ->
  exists j q, j <= i /\ ls !! j = Some q /\ po_commit q = po_commit p /\ (forall k q', k < j -> ls !! k = Some q' -> po_commit q' <> po_commit p) /\ pl_meta r = data_of q.
Proof.
  intros Hone Hi Hr. assert (Hfirst : exists j q, j <= i /\ ls !! j = Some q /\ po_commit q = po_commit p /\ (forall k q', k < j -> ls !! k = Some q' -> po_commit q' <> po_commit p)).
  { clear Hr Hone. revert i Hi. induction ls as [|x ls IH]; intros i Hi; [done|]. destruct (decide (po_commit x = po_commit p)) as [E|E].
    - exists 0, x. split; [lia|]. split; [done|]. split; [done|]. lia.
    - destruct i as [|i]; [injection Hi as ->; done|]. destruct (IH i Hi) as (j & q & H1 & H2 & H3 & H4). exists (S j), q. split; [lia|]. split; [done|]. split; [done|].
      intros [|k] q' Hk Hq'; [injection Hq' as <-; done|]. apply (H4 k); [lia|done]. }
  destruct Hfirst as (j & q & H1 & H2 & H3 & H4). exists j, q. split; [done|]. split; [done|]. split; [done|]. split; [done|].
  assert (Hq : po_meta q <> []). { apply (Hone j q H2). intros k q' Hk Hq' Heq. rewrite H3 in Heq. by apply (H4 k q'). }
  destruct (decide (j = i)) as [->|Hne]; [assert (p = q) as -> by congruence; by eapply out_own|].
  assert (Hempty : forall k q', j < k -> ls !! k = Some q' -> po_commit q' = po_commit p -> po_meta q' = []).
  { intros k q' Hk Hq' Heq. destruct (po_meta q') eqn:E; [done|]. exfalso. apply (proj1 (Hone k q' Hq')) with (j := j) (q := q); [by rewrite E|done|done|congruence]. }
  eapply out_earlier; [exact Hi|exact Hr| | |exact H2|exact H3|exact Hq|].
  - apply (Hempty i p); [lia|done|done].
  - lia.
  - intros k q' Hk. apply Hempty. lia.
Qed.
