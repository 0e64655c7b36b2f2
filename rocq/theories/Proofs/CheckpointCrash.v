(** * Crash points of writing a checkpoint (C40, C41) *)
From Verif.Model Require Import Base IncBlame LogParser Msgp Process Checkpoint CheckpointFS.
From Verif.Spec Require Import Processing Checkpoint.
From Coq Require Import Lia.

(** ** The part of the operations that leaves the checkpoint alone *)
Definition prepare_ops (s : fs) (o1 : list bytes -> list bytes) (chunks : list (bytes * bytes)) (vchunks : list bytes) : list op :=
  map ORemoveTmp (o1 (entries (fs_tmp s))) ++ [ORmdirTmp] ++
  concat (map (fun n => [OMkdirTmp; OCreate (dot_tmp n)]) [n_repo; n_blames; n_lines; n_ldata]) ++
  map (fun x : bytes * bytes => OAppend (dot_tmp x.1) x.2) chunks ++
  map (fun n => ORename (dot_tmp n) n) [n_repo; n_blames; n_lines; n_ldata] ++
  [OCreate (dot_tmp n_version)] ++ map (OAppend (dot_tmp n_version)) vchunks ++ [ORename (dot_tmp n_version) n_version].
Lemma write_ops_split s o1 o2 chunks vchunks :
  write_ops s o1 o2 chunks vchunks = prepare_ops s o1 chunks vchunks ++ map ORemoveCp (o2 (entries (fs_cp s))) ++ [ORmdirCp; OInstall].
Proof. unfold write_ops, prepare_ops. by rewrite <-!app_assoc. Qed.

Definition tmp_op (o : op) : Prop := match o with ORemoveCp _ | ORmdirCp | OInstall => False | _ => True end.
Lemma tmp_ops_cp ops : Forall tmp_op ops -> forall s, fs_cp (apply_ops s ops) = fs_cp s.
Proof. induction 1 as [|o ops Ho _ IH]; intros s; [done|]. cbn. rewrite IH. by destruct o. Qed.
Lemma prepare_tmp s o1 chunks vchunks : Forall tmp_op (prepare_ops s o1 chunks vchunks).
Proof.
  unfold prepare_ops. repeat apply Forall_app_2; try (apply Forall_map, Forall_true; intros; exact I); repeat constructor.
Qed.
Lemma apply_app s a b : apply_ops s (a ++ b) = apply_ops (apply_ops s a) b.
Proof. unfold apply_ops. apply foldl_app. Qed.

Notation four := [n_repo; n_blames; n_lines; n_ldata].
Ltac names := let H := fresh in intros H; vm_compute in H; discriminate H.

Lemma appends_ok chunks : (forall x, x ∈ chunks -> x.1 ∈ four) -> forall s t (w : bytes -> bytes),
  fs_tmp s = Some t -> (forall n, n ∈ four -> t !! dot_tmp n = Some (w n)) ->
  exists t', fs_tmp (apply_ops s (map (fun x : bytes * bytes => OAppend (dot_tmp x.1) x.2) chunks)) = Some t' /\
    (forall n, n ∈ four -> t' !! dot_tmp n = Some (w n ++ written chunks n)) /\
    forall m, (forall n, n ∈ four -> m <> dot_tmp n) -> t' !! m = t !! m.
Proof.
  induction chunks as [|[n d] chunks IH]; intros Hin s t w Ht Hw.
  - exists t. split; [done|]. split; [|done]. intros n Hn. cbn. rewrite app_nil_r. by apply Hw.
  - assert (Hn : n ∈ four) by (apply (Hin (n, d)); by constructor).
    destruct (IH ltac:(intros x Hx; apply Hin; by constructor) (apply_op s (OAppend (dot_tmp n) d))
               (<[ dot_tmp n := default [] (t !! dot_tmp n) ++ d ]> t) (fun m => if decide (n = m) then w m ++ d else w m)) as (t' & Ht' & Hw' & Hm').
    + cbn. by rewrite Ht.
    + intros m Hm. case_decide as Hnm; [subst m; rewrite lookup_insert, Hw by done; done|].
      rewrite lookup_insert_ne; [by apply Hw|]. intros E. apply Hnm. unfold dot_tmp in E. by apply app_inv_tail in E.
    + exists t'. split; [done|]. split; [|intros m Hm; rewrite Hm' by done; apply lookup_insert_ne; intros E; by apply (Hm n Hn)].
      intros m Hm. rewrite Hw' by done. unfold written. rewrite filter_cons. cbn [fst].
      destruct (decide (n = m)) as [->|]; [|done]. cbn. by rewrite app_assoc.
Qed.
Lemma vappends_ok vchunks : forall s t v, fs_tmp s = Some t -> t !! dot_tmp n_version = Some v ->
  exists t', fs_tmp (apply_ops s (map (OAppend (dot_tmp n_version)) vchunks)) = Some t' /\
    t' !! dot_tmp n_version = Some (v ++ concat vchunks) /\ forall m, m <> dot_tmp n_version -> t' !! m = t !! m.
Proof.
  induction vchunks as [|d vchunks IH]; intros s t v Ht Hv.
  - exists t. cbn. by rewrite app_nil_r.
  - destruct (IH (apply_op s (OAppend (dot_tmp n_version) d)) (<[ dot_tmp n_version := default [] (t !! dot_tmp n_version) ++ d ]> t) (v ++ d)) as (t' & Ht' & Hv' & Hm).
    + cbn. by rewrite Ht.
    + by rewrite lookup_insert, Hv.
    + exists t'. split; [done|]. split; [by rewrite Hv', <-app_assoc|]. intros m Hne. rewrite Hm by done. by rewrite lookup_insert_ne.
Qed.

Lemma rename_ok s t a b d : fs_tmp s = Some t -> t !! a = Some d -> a <> b ->
  exists t', fs_tmp (apply_op s (ORename a b)) = Some t' /\ t' !! b = Some d /\ (forall m, m <> a -> m <> b -> t' !! m = t !! m) /\ t' !! a = None.
Proof.
  intros Ht Ha Hab. exists (<[ b := d ]> (delete a t)). split; [cbn; by rewrite Ht; cbn; rewrite Ha|]. split; [apply lookup_insert|].
  split; [|by rewrite lookup_insert_ne, lookup_delete].
  intros m H1 H2. by rewrite lookup_insert_ne, lookup_delete_ne.
Qed.

(** Removing all entries of a directory. *)
Lemma rmdir_empty (t : dir) : (forall n, t !! n = None) -> rmdir (Some t) = None.
Proof. intros H. assert (t = ∅) as -> by (by apply map_empty). unfold rmdir. rewrite map_to_list_empty. by rewrite decide_True. Qed.
Lemma remove_tmp l : forall s, fs_tmp (apply_ops s (map ORemoveTmp l)) = (fun t : dir => foldr delete t (reverse l)) <$> fs_tmp s /\
  fs_cp (apply_ops s (map ORemoveTmp l)) = fs_cp s.
Proof.
  induction l as [|x l IH]; intros s; [destruct s as [[t|] cp]; done|]. cbn [map].
  change (apply_ops s (ORemoveTmp x :: map ORemoveTmp l)) with (apply_ops (apply_op s (ORemoveTmp x)) (map ORemoveTmp l)).
  destruct (IH (apply_op s (ORemoveTmp x))) as [-> ->]. split; [|done]. rewrite reverse_cons. destruct s as [[t|] cp]; cbn; [|done]. by rewrite foldr_app.
Qed.
Lemma remove_cp l : forall s, fs_cp (apply_ops s (map ORemoveCp l)) = (fun t : dir => foldr delete t (reverse l)) <$> fs_cp s.
Proof.
  induction l as [|x l IH]; intros s; [destruct s as [tm [t|]]; done|]. cbn [map].
  change (apply_ops s (ORemoveCp x :: map ORemoveCp l)) with (apply_ops (apply_op s (ORemoveCp x)) (map ORemoveCp l)).
  rewrite (IH (apply_op s (ORemoveCp x))). rewrite reverse_cons. destruct s as [tm [t|]]; cbn; [|done]. by rewrite foldr_app.
Qed.
Lemma all_removed (t : dir) l : l ≡ₚ entries (Some t) -> rmdir (Some (foldr delete t (reverse l))) = None.
Proof.
  intros Hl. apply rmdir_empty. intros n. destruct (decide (n ∈ l)) as [Hn|Hn].
  - rewrite <- elem_of_reverse in Hn. induction (reverse l) as [|x k IH]; [by apply elem_of_nil in Hn|]. cbn.
    destruct (decide (n = x)) as [->|Hne]; [apply lookup_delete|]. rewrite lookup_delete_ne by done. apply IH.
    apply elem_of_cons in Hn as [?|?]; done.
  - assert (Ht : t !! n = None).
    { destruct (t !! n) as [d|] eqn:E; [|done]. exfalso. apply Hn. rewrite Hl. cbn. apply elem_of_list_fmap. exists (n, d).
      split; [done|]. by apply elem_of_map_to_list. }
    clear Hl Hn. induction (reverse l) as [|x k IH]; [done|]. cbn. destruct (decide (n = x)) as [->|Hne]; [apply lookup_delete|].
    by rewrite lookup_delete_ne.
Qed.
Lemma tmp_gone s o1 : removal_order o1 -> fs_tmp (apply_ops (apply_ops s (map ORemoveTmp (o1 (entries (fs_tmp s))))) [ORmdirTmp]) = None.
Proof.
  intros Ho. cbn. destruct (remove_tmp (o1 (entries (fs_tmp s))) s) as [-> _]. destruct (fs_tmp s) as [t|]; [|done]. cbn [fmap option_fmap option_map].
  apply all_removed, Ho.
Qed.
Lemma cp_gone s s1 o2 : removal_order o2 -> fs_cp s1 = fs_cp s -> rmdir (fs_cp (apply_ops s1 (map ORemoveCp (o2 (entries (fs_cp s)))))) = None.
Proof.
  intros Ho Hcp. rewrite remove_cp, Hcp. destruct (fs_cp s) as [t|]; [|done]. cbn [fmap option_fmap option_map]. apply all_removed, Ho.
Qed.

(** After the preparation, tmp holds the complete new checkpoint. *)
Notation tmps := (map dot_tmp four).
Lemma prepared s o1 chunks vchunks c v : removal_order o1 -> writes_of c v chunks vchunks ->
  exists t, fs_tmp (apply_ops s (prepare_ops s o1 chunks vchunks)) = Some t /\ holds t c v.
Proof.
  intros Ho (Hin & H1 & H2 & H3 & H4 & H5). unfold prepare_ops. rewrite apply_app, apply_app. set (s2 := apply_ops (apply_ops s _) [ORmdirTmp]).
  assert (Hs2 : fs_tmp s2 = None) by (by apply tmp_gone). clearbody s2.
  rewrite apply_app. set (s3 := apply_ops s2 _).
  assert (exists t, fs_tmp s3 = Some t /\ (forall n, n ∈ four -> t !! dot_tmp n = Some []) /\ forall m, (forall n, n ∈ four -> m <> dot_tmp n) -> t !! m = None) as (t3 & Ht3 & Hw3 & Hz3).
  { destruct s2 as [tm cp]. cbn in Hs2. subst tm.
    exists (<[ dot_tmp n_ldata := [] ]> (<[ dot_tmp n_lines := [] ]> (<[ dot_tmp n_blames := [] ]> (<[ dot_tmp n_repo := [] ]> ∅)))). split; [reflexivity|]. split.
    - intros n Hn. repeat (apply elem_of_cons in Hn as [->|Hn]; [vm_compute; reflexivity|]). by apply elem_of_nil in Hn.
    - intros m Hm. rewrite !lookup_insert_ne; [apply lookup_empty|apply not_eq_sym, Hm; set_solver..]. }
  clearbody s3. rewrite apply_app. destruct (appends_ok chunks Hin s3 t3 (fun _ => []) Ht3 Hw3) as (t4 & Ht4 & Hw4 & Hz4). cbn [app] in Hw4.
  set (s4 := apply_ops s3 _) in *. clearbody s4. rewrite apply_app. cbn [map]. set (s5 := apply_ops s4 _).
  assert (exists t, fs_tmp s5 = Some t /\ (forall n, n ∈ four -> t !! n = Some (written chunks n)) /\ forall m, m ∉ four -> t !! m = None) as (t5 & Ht5 & Hw5 & Hz5).
  { destruct (rename_ok s4 t4 (dot_tmp n_repo) n_repo _ Ht4 (Hw4 n_repo ltac:(set_solver))) as (ta & Ea & Ha & Oa & Za); [names|].
    destruct (rename_ok _ ta (dot_tmp n_blames) n_blames (written chunks n_blames) Ea) as (tb & Eb & Hb & Ob & Zb);
      [rewrite Oa by names; apply Hw4; set_solver|names|].
    destruct (rename_ok _ tb (dot_tmp n_lines) n_lines (written chunks n_lines) Eb) as (tc & Ec & Hc & Oc & Zc);
      [rewrite Ob, Oa by names; apply Hw4; set_solver|names|].
    destruct (rename_ok _ tc (dot_tmp n_ldata) n_ldata (written chunks n_ldata) Ec) as (td & Ed & Hd & Od & Zd);
      [rewrite Oc, Ob, Oa by names; apply Hw4; set_solver|names|].
    exists td. split; [exact Ed|]. split.
    - intros n Hn.
      apply elem_of_cons in Hn as [->|Hn]; [by rewrite Od, Oc, Ob by names|].
      apply elem_of_cons in Hn as [->|Hn]; [by rewrite Od, Oc by names|].
      apply elem_of_cons in Hn as [->|Hn]; [by rewrite Od by names|].
      apply elem_of_cons in Hn as [->|Hn]; [done|]. by apply elem_of_nil in Hn.
    - intros m Hm. rewrite !not_elem_of_cons in Hm. destruct Hm as (M1 & M2 & M3 & M4 & _).
      destruct (decide (m = dot_tmp n_ldata)) as [->|N4]; [exact Zd|]. rewrite Od by done.
      destruct (decide (m = dot_tmp n_lines)) as [->|N3]; [exact Zc|]. rewrite Oc by done.
      destruct (decide (m = dot_tmp n_blames)) as [->|N2]; [exact Zb|]. rewrite Ob by done.
      destruct (decide (m = dot_tmp n_repo)) as [->|N1]; [exact Za|]. rewrite Oa by done.
      assert (Hf : forall n, n ∈ four -> m <> dot_tmp n).
      { intros n Hn. repeat (apply elem_of_cons in Hn as [->|Hn]; [done|]). by apply elem_of_nil in Hn. }
      rewrite Hz4 by done. by apply Hz3. }
  clearbody s5. rewrite apply_app. set (s6 := apply_ops s5 _).
  assert (Ht6 : fs_tmp s6 = Some (<[ dot_tmp n_version := [] ]> t5)) by (cbn; by rewrite Ht5). clearbody s6. rewrite apply_app.
  destruct (vappends_ok vchunks s6 _ [] Ht6 (lookup_insert _ _ _)) as (t7 & Ht7 & Hv7 & Ho7). cbn [app] in Hv7.
  destruct (rename_ok _ t7 (dot_tmp n_version) n_version _ Ht7 Hv7) as (t8 & Ht8 & Hv8 & Ho8 & Z8); [names|].
  exists t8. split; [exact Ht8|]. unfold holds. rewrite <-H1, <-H2, <-H3, <-H4, <-H5.
  assert (Hf : forall n, n ∈ four -> n <> dot_tmp n_version -> n <> n_version -> t8 !! n = Some (written chunks n)).
  { intros n Hn N1 N2. rewrite Ho8, Ho7, lookup_insert_ne by (done || by apply not_eq_sym). by apply Hw5. }
  split; [apply (Hf n_repo); [set_solver|names|names]|]. split; [apply (Hf n_blames); [set_solver|names|names]|].
  split; [apply (Hf n_lines); [set_solver|names|names]|]. split; [apply (Hf n_ldata); [set_solver|names|names]|].
  split; [exact Hv8|]. intros m Hm. rewrite !not_elem_of_cons in Hm. destruct Hm as (M1 & M2 & M3 & M4 & M5 & _).
  destruct (decide (m = dot_tmp n_version)) as [->|N]; [exact Z8|]. rewrite Ho8 by done. rewrite Ho7 by done.
  rewrite lookup_insert_ne by (by apply not_eq_sym). apply Hz5. rewrite !not_elem_of_cons. 
  split; [exact M1|]. split; [exact M2|]. split; [exact M3|]. split; [exact M4|]. apply not_elem_of_nil.
Qed.

(** ** Reading *)
Lemma open_sub (d d' : dir) n : d' !! n = None \/ d' !! n = d !! n -> open_file d' n = open_file d n \/ exists m, open_file d' n = Err m.
Proof. unfold open_file. intros [->| ->]; [right; by eexists|by left]. Qed.
Lemma bind_sub {A C} (x x' : outcome A) (f f' : A -> outcome C) :
  x' = x \/ (exists m, x' = Err m) -> (forall a, f' a = f a \/ exists m, f' a = Err m) ->
  obind x' f' = obind x f \/ exists m, obind x' f' = Err m.
Proof. intros [->|[m ->]] Hf; [|right; by eexists]. destruct x; cbn; [apply Hf|by left..]. Qed.
Lemma read_sub skip s s' expected : (forall n, default ∅ (fs_cp s') !! n = None \/ default ∅ (fs_cp s') !! n = default (∅ : dir) (fs_cp s) !! n) ->
  read_checkpoint skip s' expected = read_checkpoint skip s expected \/ exists m, read_checkpoint skip s' expected = Err m.
Proof.
  intros Hs. unfold read_checkpoint. set (d := default (∅ : dir) (fs_cp s)) in *. set (d' := default (∅ : dir) (fs_cp s')) in *.
  apply bind_sub.
  - case_decide; [|by left]. destruct (Hs n_version) as [->| ->]; [right; by eexists|by left].
  - intros _. unfold read_dir. repeat (apply bind_sub; [by apply open_sub|intros ?]). by left.
Qed.
Lemma read_holds skip d c v expected tm : holds d c v ->
  read_checkpoint skip (FS tm (Some d)) expected =
  if decide (expected = [] \/ expected = v) then read_files skip c else Err (not_expected expected v).
Proof.
  intros (H1 & H2 & H3 & H4 & H5 & _). unfold read_checkpoint, read_dir, open_file, n_repo, n_blames, n_lines, n_ldata, n_version. cbn [fs_cp]. cbv zeta. change (default (∅ : dir) (Some d)) with d.
  rewrite H1, H2, H3, H4, H5. destruct c as [a b l e]. cbn [cf_repo cf_blames cf_lines cf_ldata obind].
  destruct (decide (expected = [])) as [->|Hne].
  - rewrite decide_False by tauto. cbn [obind]. by rewrite decide_True by tauto.
  - rewrite decide_True by done. destruct (decide (expected = v)) as [->|Hv].
    + rewrite decide_False by tauto. cbn [obind]. by rewrite decide_True by tauto.
    + rewrite decide_True by done. cbn [obind]. rewrite decide_False; [done|]. tauto.
Qed.

(** ** Crash points *)
Lemma removes_sub l : forall s, (forall n, default ∅ (fs_cp (apply_ops s (map ORemoveCp l))) !! n = None \/
    default ∅ (fs_cp (apply_ops s (map ORemoveCp l))) !! n = default (∅ : dir) (fs_cp s) !! n) /\
  fs_tmp (apply_ops s (map ORemoveCp l)) = fs_tmp s.
Proof.
  induction l as [|x l IH]; intros s; [split; [by right|done]|]. cbn [map]. change (apply_ops s (ORemoveCp x :: map ORemoveCp l)) with (apply_ops (apply_op s (ORemoveCp x)) (map ORemoveCp l)).
  destruct (IH (apply_op s (ORemoveCp x))) as [H1 H2]. split; [|by rewrite H2].
  intros n. destruct (H1 n) as [->| ->]; [by left|]. cbn. destruct (fs_cp s) as [d|]; [|by right]. cbn.
  change (default ∅ (Some (delete x d))) with (delete x d). change (default ∅ (Some d)) with d.
  destruct (decide (n = x)) as [->|]; [left; apply lookup_delete|right; by apply lookup_delete_ne].
Qed.

(** Where the sequence of operations can stop. *)
Inductive stopped (s : fs) (c : cfiles) (v : bytes) (m : nat) : nat -> fs -> Prop :=
| st_prepare j s' : j <= m -> fs_cp s' = fs_cp s -> stopped s c v m j s'
| st_remove j t s' : m <= j -> fs_tmp s' = Some t -> holds t c v ->
    (forall n, default ∅ (fs_cp s') !! n = None \/ default ∅ (fs_cp s') !! n = default (∅ : dir) (fs_cp s) !! n) -> stopped s c v m j s'
| st_done j t : m < j -> holds t c v -> stopped s c v m j (FS None (Some t)).

Lemma crash_points s o1 o2 chunks vchunks c v j : removal_order o1 -> removal_order o2 -> writes_of c v chunks vchunks ->
  stopped s c v (length (prepare_ops s o1 chunks vchunks)) j (apply_ops s (take j (write_ops s o1 o2 chunks vchunks))).
Proof.
  intros Ho1 Ho2 Hw. rewrite write_ops_split. set (P := prepare_ops s o1 chunks vchunks).
  destruct (decide (j <= length P)) as [Hj|Hj].
  { rewrite take_app_le by done. apply st_prepare; [done|]. apply tmp_ops_cp. apply Forall_take, prepare_tmp. }
  rewrite take_app_ge by lia. rewrite apply_app. destruct (prepared s o1 chunks vchunks c v Ho1 Hw) as (t & Ht & Hh). fold P in Ht.
  assert (Hcp : fs_cp (apply_ops s P) = fs_cp s) by (apply tmp_ops_cp, prepare_tmp). set (s1 := apply_ops s P) in *. clearbody s1.
  set (rm := o2 (entries (fs_cp s))). set (i := j - length P).
  destruct (decide (i <= length (map ORemoveCp rm))) as [Hi|Hi].
  { rewrite take_app_le by done. rewrite <-firstn_map || idtac.
    assert (E : take i (map ORemoveCp rm) = map ORemoveCp (take i rm)) by apply firstn_map. rewrite E.
    destruct (removes_sub (take i rm) s1) as [H1 H2]. eapply st_remove; [lia|by rewrite H2|done|].
    intros n. destruct (H1 n) as [?|E1]; [by left|right]. by rewrite E1, Hcp. }
  rewrite take_app_ge by lia. rewrite apply_app. destruct (removes_sub rm s1) as [_ H2].
  pose proof (cp_gone s s1 o2 Ho2 Hcp) as Hg. fold rm in Hg.
  set (s2 := apply_ops s1 (map ORemoveCp rm)) in *. clearbody s2. rewrite Ht in H2.
  destruct (i - length (map ORemoveCp rm)) as [|[|i']] eqn:Ei; [lia| |].
  - change (take 1 [ORmdirCp; OInstall]) with [ORmdirCp]. cbn. rewrite Hg. eapply st_remove; [lia|done|exact Hh|]. intros n. left. apply lookup_empty.
  - assert (E : take (S (S i')) [ORmdirCp; OInstall] = [ORmdirCp; OInstall]) by by destruct i'. rewrite E. cbn. rewrite Hg, H2. apply st_done; [lia|done].
Qed.
Lemma gone_point s o1 o2 chunks vchunks : removal_order o2 -> exists j s', apply_ops s (take j (write_ops s o1 o2 chunks vchunks)) = s' /\ fs_cp s' = None /\
  j < length (write_ops s o1 o2 chunks vchunks).
Proof.
  intros Ho2. rewrite write_ops_split. set (P := prepare_ops s o1 chunks vchunks).
  assert (Hcp : fs_cp (apply_ops s P) = fs_cp s) by (apply tmp_ops_cp, prepare_tmp). pose proof (cp_gone s _ o2 Ho2 Hcp) as Hg.
  set (rm := map ORemoveCp _) in *.
  exists (length P + length rm + 1). eexists. split; [reflexivity|]. split; [|rewrite !app_length; cbn; lia].
  rewrite take_app_ge by lia. replace (length P + length rm + 1 - length P) with (length rm + 1) by lia.
  rewrite take_app_ge by lia. replace (length rm + 1 - length rm) with 1 by lia. change (take 1 [ORmdirCp; OInstall]) with [ORmdirCp].
  rewrite !apply_app. exact Hg.
Qed.
Lemma complete_write s o1 o2 chunks vchunks c v : removal_order o1 -> removal_order o2 -> writes_of c v chunks vchunks ->
  exists t, apply_ops s (write_ops s o1 o2 chunks vchunks) = FS None (Some t) /\ holds t c v.
Proof.
  intros Ho1 Ho2 Hw. rewrite write_ops_split, !apply_app. destruct (prepared s o1 chunks vchunks c v Ho1 Hw) as (t & Ht & Hh).
  assert (Hcp : fs_cp (apply_ops s (prepare_ops s o1 chunks vchunks)) = fs_cp s) by (apply tmp_ops_cp, prepare_tmp).
  pose proof (cp_gone s _ o2 Ho2 Hcp) as Hg. set (s1 := apply_ops s (prepare_ops _ _ _ _)) in *. clearbody s1. destruct (removes_sub (o2 (entries (fs_cp s))) s1) as [_ H2].
  set (s2 := apply_ops s1 _) in *. clearbody s2. rewrite Ht in H2. exists t. split; [|done]. cbn. by rewrite Hg, H2.
Qed.
