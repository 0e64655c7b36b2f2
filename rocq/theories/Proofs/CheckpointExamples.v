(** * Examples for checkpoints and incremental runs *)
From Verif.Model Require Import Base GoStrings IncBlame LogParser ParentsGraph Process Msgp Checkpoint CheckpointFS.
From Verif.Spec Require Import Text UnifiedDiff Attribution GitLog CommitGraph History Processing Checkpoint Resuming.
From Verif.Proofs Require Import CheckpointProofs CheckpointFiles TextLemmas LogParse GraphExamples ParentsGraphProofs BlameOf ProcessRegular ProcessMerge
  MergeOrder ProcessExamples.
From Coq Require Import Lia.

(** A state with pointers for a given state: nothing is shared. *)
Definition add_file (P : prepo) (x : bytes * (bytes * blame)) : prepo :=
  let '(c, (f, b)) := x in
  PRepo (<[ c := <[ f := length (pr_blames P) ]> (default ∅ (pr_files P !! c)) ]> (pr_files P))
        (pr_blames P ++ [PBlame (b_commit b) (seq (length (pr_lines P)) (length (b_lines b))) (b_binary b)]) (pr_lines P ++ b_lines b).
Definition unshared (r : repo) : prepo :=
  foldl add_file (PRepo ((fun _ => ∅) <$> r) [] []) (concat (map (fun cf : bytes * gmap bytes blame => map (pair cf.1) (map_to_list cf.2)) (map_to_list r))).

Lemma add_file_sound P x : sound P -> sound (add_file P x).
Proof.
  destruct x as (c & f & b). intros [H1 H2]. split.
  - intros c' fs f' i Hc Hf. cbn in *. rewrite app_length. cbn. destruct (decide (c' = c)) as [->|Hne].
    + rewrite lookup_insert in Hc. injection Hc as <-. destruct (decide (f' = f)) as [->|Hfe].
      * rewrite lookup_insert in Hf. injection Hf as <-. lia.
      * rewrite lookup_insert_ne in Hf by done. destruct (pr_files P !! c) as [fs|] eqn:E; cbn in Hf; [|by rewrite lookup_empty in Hf].
        pose proof (H1 c fs f' i E Hf). lia.
    + rewrite lookup_insert_ne in Hc by done. pose proof (H1 c' fs f' i Hc Hf). lia.
  - intros i bl q Hi Hq. cbn in *. rewrite app_length. apply lookup_app_Some in Hi as [Hi|[Hl Hi]].
    + pose proof (H2 i bl q Hi Hq). lia.
    + destruct (i - length (pr_blames P)) as [|n]; [|by destruct n]. cbn in Hi. injection Hi as <-. cbn in Hq. apply elem_of_seq in Hq. lia.
Qed.
Lemma unshared_sound r : sound (unshared r).
Proof.
  unfold unshared. set (P0 := PRepo _ [] []). assert (H0 : sound P0).
  { split; [|intros i bl q Hi; cbn in Hi; by rewrite lookup_nil in Hi]. intros c fs f b Hc Hf. cbn in Hc. rewrite lookup_fmap in Hc.
    destruct (r !! c); [|done]. cbn in Hc. injection Hc as <-. by rewrite lookup_empty in Hf. }
  clearbody P0. revert P0 H0. induction (concat _) as [|x l IH]; intros P0 H0; [done|]. cbn. by apply IH, add_file_sound.
Qed.

(** Checks for concrete states. *)
Definition ex_hash (d : bytes) : N := (unbe 0 d mod 18446744073709551616)%N.
Definition smallb (s : bytes) : bool := (len s <? 4294967296)%N.
Definition encb (P : prepo) : bool :=
  forallb (fun cf : bytes * gmap bytes nat => smallb cf.1 && forallb (fun x : bytes * nat => smallb x.1) (map_to_list cf.2)) (map_to_list (pr_files P)) &&
  forallb (fun bl => smallb (pb_commit bl) && (N.of_nat (length (pb_lines bl)) <? 4294967296)%N) (pr_blames P) &&
  forallb (fun l => smallb (l_commit l) && smallb (l_data l)) (pr_lines P) &&
  (N.of_nat (length (pr_blames P)) <? 18446744073709551616)%N && (N.of_nat (length (pr_lines P)) <? 18446744073709551616)%N.
Lemma smallb_ok s : smallb s = true -> small s.
Proof. unfold smallb, small. intros H. by apply N.ltb_lt. Qed.
Lemma encb_ok P : encb P = true -> encodable ex_hash P.
Proof.
  unfold encb. intros H. apply andb_true_iff in H as [H H5]. apply andb_true_iff in H as [H H4]. apply andb_true_iff in H as [H H3].
  apply andb_true_iff in H as [H1 H2]. rewrite forallb_forall in H1, H2, H3. split; [|split; [|split; [|split; [|split]]]].
  - intros d. unfold num, ex_hash. apply N.mod_lt. done.
  - intros c f b Hb. unfold blame_at in Hb. destruct (pr_files P !! c) as [fs|] eqn:E; [|done]. cbn in Hb.
    specialize (H1 (c, fs)). cbn in H1. apply andb_true_iff in H1 as [Hc Hf]; [|by apply elem_of_list_In, elem_of_map_to_list].
    split; [by apply smallb_ok|]. rewrite forallb_forall in Hf. apply smallb_ok. apply (Hf (f, b)). by apply elem_of_list_In, elem_of_map_to_list.
  - intros bl Hbl. specialize (H2 bl ltac:(by apply elem_of_list_In)). apply andb_true_iff in H2 as [Ha Hb]. split; [by apply smallb_ok|by apply N.ltb_lt].
  - intros l Hl. specialize (H3 l ltac:(by apply elem_of_list_In)). apply andb_true_iff in H3 as [Ha Hb]. split; by apply smallb_ok.
  - by apply N.ltb_lt.
  - by apply N.ltb_lt.
Qed.
Definition ncb (P : prepo) : bool :=
  forallb (fun l => forallb (fun l' => negb (N.eqb (ex_hash (l_data l)) (ex_hash (l_data l'))) || bool_decide (l_data l = l_data l')) (pr_lines P)) (pr_lines P).
Lemma ncb_ok P : ncb P = true -> no_collision ex_hash P.
Proof.
  unfold ncb. rewrite forallb_forall. intros H l l' (c & f & i & q & _ & Hl) (c' & f' & i' & q' & _ & Hl') E.
  specialize (H l ltac:(by eapply elem_of_list_In, elem_of_list_lookup_2)). rewrite forallb_forall in H.
  specialize (H l' ltac:(by eapply elem_of_list_In, elem_of_list_lookup_2)). rewrite E, N.eqb_refl in H. cbn in H. by apply bool_decide_eq_true in H.
Qed.

(** ** ex_hist in two runs: first without e5, then from the merge d4 on *)
Definition no_skip : bytes -> pres unit := fun _ => PBad.
Definition ex_early : history := History (delete e5 ex_parents) (hi_tree ex_hist) (hi_diff ex_hist) (hi_meta ex_hist).
Definition ex_cs1 := [a1; b2; c3; d4].
Definition ex_cs2 := [c3; d4; e5].
Definition ex_s1 : pst := (process_log (ex_env ex_early id_orders) (pst_init ∅) (map commit_of (git_log ex_early ex_cs1))).1.
Definition ex_P : prepo := unshared (s_repo ex_s1).
Definition is_ret {A} (o : outcome A) : bool := match o with Ret _ => true | _ => false end.
Definition get {A} (d : A) (o : outcome A) : A := match o with Ret a => a | _ => d end.
Lemma get_ok {A} (d : A) (o : outcome A) : is_ret o = true -> o = Ret (get d o).
Proof. by destruct o. Qed.
Definition ex_w : wst := get (WSt 0 ∅ (LSt 0 ∅ ∅ [] []) [] []) (write_records ex_hash ex_P id (fun _ => id)).
Definition ex_P' : prepo := get (PRepo ∅ [] []) (read_files no_skip (encode_files ex_w)).
Definition ex_s2 : pst := (process_log (ex_env ex_hist rev_orders) (pst_init (values ex_P')) (map commit_of (git_log ex_hist ex_cs2))).1.

Lemma ex_early_extends : extends ex_early ex_hist.
Proof.
  intros c [ps Hc]. split; [|done]. cbn in Hc |- *. apply lookup_delete_Some in Hc as [Hne Hc]. rewrite lookup_delete_ne by done. done.
Qed.
Lemma ex_early_known c : is_Some (hi_parents ex_early !! c) -> is_Some (hi_parents ex_hist !! c).
Proof. intros Hc. destruct (ex_early_extends c Hc) as [-> _]. done. Qed.
Lemma ex_early_valid : valid_history 3 ex_early.
Proof.
  split; [apply complete_check; lk|]. intros c Hc. pose proof (proj2 ex_valid c (ex_early_known c Hc)) as Hw.
  assert (Hp : hparents ex_early c = hparents ex_hist c) by (unfold hparents, parents; destruct (ex_early_extends c Hc) as [-> _]; done).
  unfold wf_commit in *. rewrite Hp. exact Hw.
Qed.
Lemma ex_early_acyclic : acyclic (hi_parents ex_early).
Proof. apply (acyclic_check rank_of). lk. Qed.
Lemma ex_early_given : run_given ex_early (ex_slow ex_hist) 3 (ex_env ex_early id_orders) [] ex_cs1.
Proof.
  split; [exact ex_early_valid|lia|exact (ex_slow_right ex_early)|exact ex_early_acyclic|exact (ex_env_right ex_early id_orders id_orders_any)| |].
  - repeat (split; [in_list|split; [parents_known|]]). exact I.
  - intros c Hc. split; [repeat (apply elem_of_cons in Hc as [->|Hc]; [vm_compute; by eexists|]); by apply elem_of_nil in Hc|].
    assert (Hce : c ∈ ex_commits) by (repeat (apply elem_of_cons in Hc as [->|Hc]; [in_list|]); by apply elem_of_nil in Hc).
    pose proof (ex_plain c Hce) as Hp. unfold plain_merge in *.
    assert (Hk : is_Some (hi_parents ex_early !! c)) by (repeat (apply elem_of_cons in Hc as [->|Hc]; [vm_compute; by eexists|]); by apply elem_of_nil in Hc).
    assert (Hpp : hparents ex_early c = hparents ex_hist c) by (unfold hparents, parents; destruct (ex_early_extends c Hk) as [-> _]; done).
    rewrite Hpp. exact Hp.
Qed.
Lemma ex_given2 : run_given ex_hist (ex_slow ex_hist) 3 (ex_env ex_hist rev_orders) [a1; b2] ex_cs2.
Proof.
  split; [exact ex_valid|lia|exact (ex_slow_right ex_hist)|exact ex_acyclic|exact (ex_env_right ex_hist rev_orders rev_orders_any)| |].
  - repeat (split; [in_list|split; [parents_known|]]). exact I.
  - intros c Hc. assert (Hce : c ∈ ex_commits) by (repeat (apply elem_of_cons in Hc as [->|Hc]; [in_list|]); by apply elem_of_nil in Hc).
    split; [by apply ex_all_known|by apply ex_plain].
Qed.
Lemma pair_ret {A C} (x : A * C) a c : x.1 = a -> x.2 = c -> x = (a, c).
Proof. intros <- <-. by destruct x. Qed.
Lemma ex_run1 : process_log (ex_env ex_early id_orders) (pst_init ∅) (map commit_of (git_log ex_early ex_cs1)) = (ex_s1, Ret tt).
Proof. apply pair_ret; [reflexivity|]. vm_compute. reflexivity. Qed.
Lemma ex_run2 : process_log (ex_env ex_hist rev_orders) (pst_init (values ex_P')) (map commit_of (git_log ex_hist ex_cs2)) = (ex_s2, Ret tt).
Proof. apply pair_ret; [reflexivity|]. vm_compute. reflexivity. Qed.
Lemma map_check (m m' : repo) : bool_decide (map_to_list m = map_to_list m') = true -> m = m'.
Proof. intros E. apply bool_decide_eq_true in E. apply map_to_list_inj. by rewrite E. Qed.
Lemma ex_P_values : values ex_P = s_repo ex_s1.
Proof. apply map_check. vm_compute. reflexivity. Qed.
Lemma id_perm {A} : any_perm (id : list A -> list A).
Proof. intros l. done. Qed.
Lemma ex_saved : saved_as ex_hash no_skip ex_P ex_P'.
Proof.
  exists id, (fun _ => id), ex_w. split; [apply id_perm|]. split; [intros; apply id_perm|].
  split; apply get_ok; vm_compute; reflexivity.
Qed.
Lemma ex_runs : runs ex_hash no_skip ex_hist (ex_slow ex_hist) 3 (s_repo ex_s2) [(ex_cs1, s_out ex_s1); (ex_cs2, s_out ex_s2)].
Proof.
  change [(ex_cs1, s_out ex_s1); (ex_cs2, s_out ex_s2)] with ([(ex_cs1, s_out ex_s1)] ++ [(ex_cs2, s_out ex_s2)]).
  eapply (runs_next _ _ _ _ _ (s_repo ex_s1) _ ex_P ex_P' ex_hist (ex_env ex_hist rev_orders) [a1; b2] ex_cs2 ex_s2).
  - eapply runs_first; [exact ex_early_extends|exact ex_early_given|exact ex_run1].
  - exact ex_P_values.
  - apply unshared_sound.
  - apply encb_ok. vm_compute. reflexivity.
  - apply ncb_ok. vm_compute. reflexivity.
  - exact ex_saved.
  - intros c Hc. done.
  - exact ex_given2.
  - intros p Hp. assert (Hf : forallb (fun p => bool_decide (is_Some (values ex_P' !! p))) [a1; b2] = true) by (vm_compute; reflexivity).
    rewrite forallb_forall in Hf. specialize (Hf p (proj1 (elem_of_list_In _ _) Hp)). apply bool_decide_eq_true in Hf. exact Hf.
  - exact ex_run2.
Qed.

(** ** A history whose first commit is empty (git commit --allow-empty): a1 has no files, b2 creates f, c3 appends to it *)
Definition ex5_parents : graph := {[ a1 := []; b2 := [a1]; c3 := [b2] ]}.
Definition ex5_hist : history := History ex5_parents
  (pick ∅ [(b2, T_a); (c3, T_b)]) (fun c p => pick [] [(b2, D_a); (c3, D_ab)] c) ex_meta.
Lemma ex5_known c : is_Some (ex5_parents !! c) -> c = a1 \/ c = b2 \/ c = c3.
Proof.
  intros [v Hv]. unfold ex5_parents in Hv. kase c [a1; b2; c3]; [tauto..|]. exfalso.
  rewrite !lookup_insert_ne, lookup_singleton_ne in Hv by congruence. done.
Qed.
Lemma ex5_valid : valid_history 3 ex5_hist.
Proof.
  split; [apply complete_check; lk|].
  intros c Hc. pose proof ids_ok as Hids. rewrite Forall_forall in Hids.
  assert (Hm : wf_meta (hi_meta ex5_hist c)) by (split_and!; [by apply const_no_nl|by apply const_no_nl|constructor; [by apply const_no_nl|constructor]]).
  destruct (ex5_known c Hc) as [->|[->| ->]].
  - split_and!; [apply Hids; set_solver|constructor|constructor|done| |].
    + intros _. apply describes_distinct; [constructor| |constructor]. intros f Hf. by destruct Hf.
    + intros p Hp. by apply elem_of_nil in Hp.
  - split_and!; [apply Hids; set_solver|repeat constructor; lk || done|apply NoDup_singleton|done|done|].
    intros p Hp. change (p ∈ [a1]) in Hp. apply elem_of_list_singleton in Hp as ->. exact D_a_ok.
  - split_and!; [apply Hids; set_solver|repeat constructor; lk || done|apply NoDup_singleton|done|done|].
    intros p Hp. change (p ∈ [b2]) in Hp. apply elem_of_list_singleton in Hp as ->. exact D_ab_ok.
Qed.
Lemma ex5_given cs before : parents_first ex5_hist before cs -> (forall c, c ∈ cs -> c ∈ [a1; b2; c3]) ->
  run_given ex5_hist (ex_slow ex5_hist) 3 (ex_env ex5_hist id_orders) before cs.
Proof.
  intros Hpf Hin. split; [exact ex5_valid|lia|exact (ex_slow_right ex5_hist)| |exact (ex_env_right ex5_hist id_orders id_orders_any)|done|].
  - apply (acyclic_check rank_of). lk.
  - intros c Hc. apply Hin in Hc. split; [repeat (apply elem_of_cons in Hc as [->|Hc]; [vm_compute; by eexists|]); by apply elem_of_nil in Hc|].
    repeat (apply elem_of_cons in Hc as [->|Hc]; [intros Hm; try (vm_compute in Hm; lia)|]). by apply elem_of_nil in Hc.
Qed.
Definition ex5_s1 : pst := (process_log (ex_env ex5_hist id_orders) (pst_init ∅) (map commit_of (git_log ex5_hist [a1; b2]))).1.
Definition ex5_P : prepo := unshared (s_repo ex5_s1).
Definition ex5_w : wst := get (WSt 0 ∅ (LSt 0 ∅ ∅ [] []) [] []) (write_records ex_hash ex5_P id (fun _ => id)).
Definition ex5_P' : prepo := get (PRepo ∅ [] []) (read_files no_skip (encode_files ex5_w)).
Lemma ex5_run1 : process_log (ex_env ex5_hist id_orders) (pst_init ∅) (map commit_of (git_log ex5_hist [a1; b2])) = (ex5_s1, Ret tt).
Proof. apply pair_ret; [reflexivity|]. vm_compute. reflexivity. Qed.
Lemma ex5_P_values : values ex5_P = s_repo ex5_s1.
Proof. apply map_check. vm_compute. reflexivity. Qed.
Lemma ex5_saved : saved_as ex_hash no_skip ex5_P ex5_P'.
Proof.
  exists id, (fun _ => id), ex5_w. split; [apply id_perm|]. split; [intros; apply id_perm|]. split; apply get_ok; vm_compute; reflexivity.
Qed.
