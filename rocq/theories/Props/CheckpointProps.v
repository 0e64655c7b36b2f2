(** * Properties C35-C44 and C59: checkpoints and incremental runs *)
From Verif.Model Require Import Base GoStrings IncBlame LogParser ParentsGraph Process Msgp Checkpoint CheckpointFS.
From Verif.Spec Require Import Text UnifiedDiff Attribution GitLog CommitGraph History Processing Checkpoint Resuming.
From Verif.Proofs Require Import MsgpProofs CheckpointProofs CheckpointFiles TextLemmas LogParse GraphExamples ParentsGraphProofs BlameOf
  ProcessRegular ProcessMerge ProcessLoop MergeOrder ProcessTop ProcessExamples Resume ResumeTop CheckpointCrash CheckpointCut CheckpointExamples.
From Coq Require Import Lia.

(** ** C35: a checkpoint that is written and read back

    For every state and every iteration order of its maps: the commits that have files, their paths, each file's blame
    (commit, binary flag, commits of its lines) and the sharing of blame objects and of line objects; and if no two of the
    stored texts have the same hash, everything. *)
Theorem C35_round_trip hash skip S o1 o2 :
  sound S -> encodable hash S -> any_perm o1 -> (forall c, any_perm (o2 c)) ->
  exists w S', write_records hash S o1 o2 = Ret w /\ read_files skip (encode_files w) = Ret S' /\ sound S' /\
    (forall c, is_Some (pr_files S' !! c) <-> exists f, is_Some (blame_at S c f)) /\
    (forall c f, shape_at S' c f = shape_at S c f) /\
    (forall c f c' f', blame_at S' c f = blame_at S' c' f' <-> blame_at S c f = blame_at S c' f') /\
    (forall c f i c' f' i', line_at S' c f i = line_at S' c' f' i' <-> line_at S c f i = line_at S c' f' i') /\
    (no_collision hash S -> restored S S').
Proof.
  intros Hs He H1 H2. destruct (files_iso hash skip S o1 o2 Hs He H1 H2) as (w & S' & ob & ol & Hw & Hr & HI).
  exists w, S'. split; [done|]. split; [done|]. split; [by eapply iso_sound|]. split; [intros c; by eapply iso_known|].
  split; [intros c f; by eapply iso_shape|]. split; [intros c f c' f'; by eapply iso_blame_share|].
  split; [intros c f i c' f' i'; by eapply iso_line_share|]. intros HN. by eapply iso_restored.
Qed.
Print Assumptions C35_round_trip.

(** The same through the directory, whatever was there before and however the writes are split. *)
Theorem C35_through_directory hash skip S o1 o2 s r1 r2 v expected :
  sound S -> encodable hash S -> any_perm o1 -> (forall c, any_perm (o2 c)) -> removal_order r1 -> removal_order r2 -> expected = [] \/ expected = v ->
  exists w S', write_records hash S o1 o2 = Ret w /\ read_files skip (encode_files w) = Ret S' /\
    forall chunks vchunks, writes_of (encode_files w) v chunks vchunks ->
      read_checkpoint skip (apply_ops s (write_ops s r1 r2 chunks vchunks)) expected = Ret S'.
Proof.
  intros Hs He H1 H2 Hr1 Hr2 Hv. destruct (files_iso hash skip S o1 o2 Hs He H1 H2) as (w & S' & ob & ol & Hw & Hr & HI).
  exists w, S'. split; [done|]. split; [done|]. intros chunks vchunks Hch.
  destruct (complete_write s r1 r2 chunks vchunks _ _ Hr1 Hr2 Hch) as (t & -> & Hh). rewrite (read_holds skip t _ _ expected None Hh). by rewrite decide_True.
Qed.
Print Assumptions C35_through_directory.

(** Two files of two commits share a blame object and one line object; the hash of the contents is their number. *)
Definition ex35 : prepo :=
  PRepo {[ a1 := {[ f_ := 1 ]}; b2 := {[ f_ := 1; g_ := 0 ]} ]} [PBlame b2 [2; 0] false; PBlame a1 [0; 1] false]
        [Line x_ a1; Line y_ a1; Line x_ b2].
Lemma ex35_sound : sound ex35.
Proof.
  assert (Hf : forallb (fun cf : bytes * gmap bytes nat => forallb (fun x : bytes * nat => bool_decide (x.2 < 2)) (map_to_list cf.2)) (map_to_list (pr_files ex35)) = true)
    by (vm_compute; reflexivity).
  assert (Hl : forallb (fun bl => forallb (fun q => bool_decide (q < 3)) (pb_lines bl)) (pr_blames ex35) = true) by (vm_compute; reflexivity).
  rewrite forallb_forall in Hf, Hl. split.
  - intros c fs f b Hc Hb. specialize (Hf (c, fs) ltac:(by apply elem_of_list_In, elem_of_map_to_list)). rewrite forallb_forall in Hf.
    specialize (Hf (f, b) ltac:(by apply elem_of_list_In, elem_of_map_to_list)). by apply bool_decide_eq_true in Hf.
  - intros b bl q Hb Hq. specialize (Hl bl ltac:(by eapply elem_of_list_In, elem_of_list_lookup_2)). rewrite forallb_forall in Hl.
    specialize (Hl q ltac:(by apply elem_of_list_In)). by apply bool_decide_eq_true in Hl.
Qed.
Example C35_hypotheses_hold :
  sound ex35 /\ encodable ex_hash ex35 /\ any_perm (@rev (bytes * gmap bytes nat)) /\ (forall c : bytes, any_perm (@rev (bytes * nat))) /\
  no_collision ex_hash ex35 /\ blame_at ex35 a1 f_ = blame_at ex35 b2 f_ /\ line_at ex35 a1 f_ 0 = line_at ex35 b2 g_ 1.
Proof.
  split; [exact ex35_sound|]. split; [apply encb_ok; vm_compute; reflexivity|]. split; [intros l; symmetry; apply Permutation_rev|].
  split; [intros c l; symmetry; apply Permutation_rev|]. split; [apply ncb_ok; vm_compute; reflexivity|]. split; vm_compute; reflexivity.
Qed.

(** ** C36: line contents

    Each line read back has a stored text with the hash of the text written; so the text itself if no two stored texts
    have the same hash. *)
Theorem C36_same_hash_partial hash skip S o1 o2 w S' c f i :
  sound S -> encodable hash S -> any_perm o1 -> (forall c, any_perm (o2 c)) ->
  write_records hash S o1 o2 = Ret w -> read_files skip (encode_files w) = Ret S' ->
  match text_at S' c f i, text_at S c f i with
  | Some d', Some d => hash d' = hash d /\ (exists l, used_line S l /\ d' = l_data l) /\ (no_collision hash S -> d' = d)
  | None, None => True
  | _, _ => False
  end.
Proof.
  intros Hs He H1 H2 Hw Hr. destruct (files_iso hash skip S o1 o2 Hs He H1 H2) as (w' & R' & ob & ol & Hw' & Hr' & HI).
  rewrite Hw in Hw'. injection Hw' as <-. rewrite Hr in Hr'. injection Hr' as <-. pose proof (iso_text _ _ _ _ _ HI c f i) as HT.
  destruct (text_at S' c f i) as [d'|] eqn:E'; [|done]. destruct (text_at S c f i) as [d|] eqn:E; [|done]. destruct HT as [Hh (l & Hu & ->)].
  split; [done|]. split; [by exists l|]. intros HN. unfold text_at in E. destruct (line_at S c f i) as [q|] eqn:Eq; [|done]. cbn in E.
  destruct (pr_lines S !! q) as [l'|] eqn:El; [|done]. cbn in E. injection E as <-. apply HN; [done| |done]. by exists c, f, i, q.
Qed.
Print Assumptions C36_same_hash_partial.

(** Whatever 64 bit hash is used, there is a state with one commit and two files of one line each whose texts differ, and
    which are the same after the round trip. *)
Theorem C36_refuted hash skip : (forall d, num (hash d)) ->
  exists S, sound S /\ encodable hash S /\ forall o1 o2, any_perm o1 -> (forall c, any_perm (o2 c)) ->
    exists w S', write_records hash S o1 o2 = Ret w /\ read_files skip (encode_files w) = Ret S' /\
      exists c f f' d d', text_at S c f 0 = Some d /\ text_at S c f' 0 = Some d' /\ d <> d' /\ text_at S' c f 0 = text_at S' c f' 0.
Proof.
  intros Hh. destruct (hash_collides hash Hh) as (d & d' & Hne & E & Hl & Hl').
  set (S := PRepo {[ a1 := {[ f_ := 0; g_ := 1 ]} ]} [PBlame a1 [0] false; PBlame a1 [1] false] [Line d a1; Line d' a1]).
  assert (Hat : forall c f b, blame_at S c f = Some b -> c = a1 /\ ((f = f_ /\ b = 0) \/ (f = g_ /\ b = 1))).
  { intros c f b Hb. unfold blame_at, S in Hb. cbn [pr_files] in Hb. destruct (decide (c = a1)) as [->|Hc]; [|by rewrite lookup_singleton_ne in Hb].
    split; [done|]. rewrite lookup_singleton in Hb. cbn [mbind option_bind] in Hb. destruct (decide (f = f_)) as [->|Hf].
    - rewrite lookup_insert in Hb. injection Hb as <-. by left.
    - rewrite lookup_insert_ne in Hb by done. apply lookup_singleton_Some in Hb as [<- <-]. by right. }
  assert (Hs : sound S).
  { split.
    - intros c fs f b Hc Hf. destruct (Hat c f b) as [_ [[_ ->]|[_ ->]]]; [unfold blame_at; by rewrite Hc|cbn; lia..].
    - intros b bl q Hb Hq. destruct b as [|[|b]]; [| |done]; cbn in Hb; injection Hb as <-; cbn in Hq; apply elem_of_list_singleton in Hq as ->; cbn; lia. }
  assert (He : encodable hash S).
  { split; [exact Hh|]. split; [intros c f b Hb; destruct (Hat c f b Hb) as [-> [[-> _]|[-> _]]]; by vm_compute|].
    split; [intros bl Hbl; cbn in Hbl; repeat (apply elem_of_cons in Hbl as [->|Hbl]; [by vm_compute|]); by apply elem_of_nil in Hbl|].
    split; [|by vm_compute]. intros l Hlin. cbn in Hlin.
    repeat (apply elem_of_cons in Hlin as [->|Hlin]; [split; [by vm_compute|]; unfold small, len; cbn [l_data]; rewrite ?Hl, ?Hl'; by vm_compute|]). by apply elem_of_nil in Hlin. }
  exists S. split; [exact Hs|]. split; [exact He|]. intros o1 o2 H1 H2.
  destruct (files_iso hash skip S o1 o2 Hs He H1 H2) as (w & S' & ob & ol & Hw & Hr & HI). exists w, S'. split; [exact Hw|]. split; [exact Hr|].
  exists a1, f_, g_, d, d'. split; [reflexivity|]. split; [reflexivity|]. split; [exact Hne|].
  apply (iso_collide _ _ _ _ _ HI a1 f_ 0 a1 g_ 0 d d'); [reflexivity|reflexivity|exact E].
Qed.
Print Assumptions C36_refuted.

(** ** C37: commits without files

    Every one of them is lost, and no commit that has it as its parent can be processed then. *)
Theorem C37_refuted hash skip S o1 o2 w S' c slow lc x :
  sound S -> encodable hash S -> any_perm o1 -> (forall c, any_perm (o2 c)) ->
  write_records hash S o1 o2 = Ret w -> read_files skip (encode_files w) = Ret S' ->
  pr_files S !! c = Some ∅ -> lc_hash lc <> c ->
  values S !! c = Some ∅ /\ values S' !! c = None /\ process_regular slow (values S') [c] lc <> Ret x.
Proof.
  intros Hs He H1 H2 Hw Hr Hc Hne. destruct (files_iso hash skip S o1 o2 Hs He H1 H2) as (w' & R' & ob & ol & Hw' & Hr' & HI).
  rewrite Hw in Hw'. injection Hw' as <-. rewrite Hr in Hr'. injection Hr' as <-.
  assert (Hv : values S' !! c = None).
  { unfold values. rewrite lookup_fmap. destruct (pr_files S' !! c) as [fs|] eqn:E; [|done]. exfalso.
    assert (is_Some (pr_files S' !! c)) as Hk by (rewrite E; by eexists). apply (iso_known _ _ _ _ _ HI) in Hk as (f & b & Hb).
    unfold blame_at in Hb. rewrite Hc in Hb. cbn in Hb. by rewrite lookup_empty in Hb. }
  split; [unfold values; rewrite lookup_fmap, Hc; cbn; by rewrite omap_empty|]. split; [exact Hv|]. by apply regular_unknown.
Qed.
Print Assumptions C37_refuted.
Definition ex37 : prepo := PRepo {[ a1 := ∅; b2 := {[ f_ := 0 ]} ]} [PBlame b2 [] false] [].
Definition ex37_w : wst := get (WSt 0 ∅ (LSt 0 ∅ ∅ [] []) [] []) (write_records ex_hash ex37 id (fun _ => id)).
Definition ex37' : prepo := get (PRepo ∅ [] []) (read_files no_skip (encode_files ex37_w)).
Example C37_hypotheses_hold :
  encodable ex_hash ex37 /\ pr_files ex37 !! a1 = Some ∅ /\
  write_records ex_hash ex37 id (fun _ => id) = Ret ex37_w /\ read_files no_skip (encode_files ex37_w) = Ret ex37' /\
  bool_decide (is_Some (values ex37' !! b2)) = true.
Proof.
  split; [apply encb_ok; vm_compute; reflexivity|]. split; [vm_compute; reflexivity|].
  split; [apply get_ok; vm_compute; reflexivity|]. split; [apply get_ok; vm_compute; reflexivity|]. vm_compute. reflexivity.
Qed.

(** ** C38: incremental runs give the results of one full run

    [all]: the commits of one run over the whole history.  Whatever the series of runs, each over the history as it was at
    that time, with their own iteration orders: the result of each commit is the one of the full run. *)
Theorem C38_same_results_partial hash skip k H slow e all s r outs :
  run_given H slow k e [] all -> process_log e (pst_init ∅) (map commit_of (git_log H all)) = (s, Ret tt) ->
  runs hash skip H slow k r outs -> (forall cs out c, (cs, out) ∈ outs -> c ∈ cs -> c ∈ all) ->
  forall cs out i j c, (cs, out) ∈ outs -> cs !! i = Some c -> all !! j = Some c ->
    out !! i = s_out s !! j /\ exists res, out !! i = Some res /\ r_commit res = c.
Proof.
  intros HG Es HR Hall cs out i j c Hin Hi Hj. destruct (full_sol k H slow e all HG) as (s' & Z & res & Es' & Hsol & Hg & Hout).
  rewrite Es in Es'. injection Es' as <-. destruct (runs_inv k H slow hash skip all Z res Hsol Hg r outs HR Hall) as [_ Ho].
  rewrite (Ho cs out Hin), Hout. change (map res cs) with (res <$> cs). change (map res all) with (res <$> all).
  rewrite !list_lookup_fmap, Hi, Hj. cbn. split; [done|]. exists (res c). split; [done|].
  destruct HG as [HV Hk HS HA He Hord Hc].
  destruct (run_ok k H slow HV Hk HS HA e He [] ∅ all Hord Hc) as (s2 & fin & E2 & Hinv); [intros p Hp; by apply elem_of_nil in Hp|].
  rewrite Es in E2. injection E2 as <-. destruct (li_out _ _ _ _ _ _ _ _ Hinv) as (rs & Hrs & HF). cbn [app] in Hrs.
  destruct (Forall2_lookup_l _ _ _ _ _ HF Hj) as (x & Hx & Hcr). rewrite <-Hrs, Hout in Hx. change (map res all) with (res <$> all) in Hx.
  rewrite list_lookup_fmap, Hj in Hx. cbn in Hx. injection Hx as <-. unfold commit_right in Hcr. destruct (decide _); apply Hcr.
Qed.
Print Assumptions C38_same_results_partial.

(** The next run succeeds if the listed commits' unlisted parents are in the state with at least one file. *)
Theorem C38_resume_succeeds_partial hash skip k H slow e all r outs P H1 e1 before cs o1 o2 :
  run_given H slow k e [] all -> runs hash skip H slow k r outs -> (forall cs out c, (cs, out) ∈ outs -> c ∈ cs -> c ∈ all) ->
  values P = r -> sound P -> encodable hash P -> no_collision hash P -> any_perm o1 -> (forall c, any_perm (o2 c)) ->
  extends H1 H -> run_given H1 slow k e1 before cs -> (forall c, c ∈ cs -> c ∈ all) ->
  (forall p, p ∈ before -> exists fs, r !! p = Some fs /\ fs <> ∅) ->
  exists w P' s', write_records hash P o1 o2 = Ret w /\ read_files skip (encode_files w) = Ret P' /\
    process_log e1 (pst_init (values P')) (map commit_of (git_log H1 cs)) = (s', Ret tt).
Proof.
  intros HG HR Hall HPv Hs He HN Ho1 Ho2 HE HG1 Hcs Hb.
  destruct (full_sol k H slow e all HG) as (s & Z & res & Es & Hsol & Hg & Hout).
  destruct (runs_inv k H slow hash skip all Z res Hsol Hg r outs HR Hall) as [Hri _].
  destruct (files_iso hash skip P o1 o2 Hs He Ho1 Ho2) as (w & P' & ob & ol & Hw & Hr & HI). exists w, P'.
  pose proof (iso_values _ _ _ _ _ HI HN) as Hval. rewrite HPv in Hval.
  destruct (one_run k H slow hash skip all Z res Hsol Hg H1 e1 before cs (values P') HE HG1 Hcs) as (s' & E' & _).
  - rewrite Hval. by apply rinv_files.
  - intros p Hp. destruct (Hb p Hp) as (fs & Hfs & Hne). exists fs. rewrite Hval. by apply with_files_some.
  - by exists s'.
Qed.
Print Assumptions C38_resume_succeeds_partial.

(** In particular when it starts at the last commit of the run before, as the caller is meant to do (CommitFromIncl = the
    last commit it received), if that commit has at most 1000 parents and none of them is empty, and the commits listed
    after it have no other unlisted parents. *)
Theorem C38_resume_at_last_partial hash skip k H slow e all r outs l c out P H1 e1 cs o1 o2 :
  run_given H slow k e [] all -> runs hash skip H slow k r outs -> (forall cs out c, (cs, out) ∈ outs -> c ∈ cs -> c ∈ all) ->
  last outs = Some (l ++ [c], out) -> length (hparents H c) <= 1000 -> (forall p, p ∈ hparents H c -> hi_tree H p <> ∅) ->
  values P = r -> sound P -> encodable hash P -> no_collision hash P -> any_perm o1 -> (forall c, any_perm (o2 c)) ->
  extends H1 H -> run_given H1 slow k e1 (hparents H c) cs -> (forall c, c ∈ cs -> c ∈ all) ->
  exists w P' s', write_records hash P o1 o2 = Ret w /\ read_files skip (encode_files w) = Ret P' /\
    process_log e1 (pst_init (values P')) (map commit_of (git_log H1 cs)) = (s', Ret tt).
Proof.
  intros HG HR Hall Hlast Hlen Hne HPv Hs He HN Ho1 Ho2 HE HG1 Hcs.
  eapply (C38_resume_succeeds_partial hash skip k H slow e all r outs P H1 e1 (hparents H c) cs o1 o2); try done.
  intros p Hp. destruct (full_sol k H slow e all HG) as (s & Z & res & Es & Hsol & Hg & Hout).
  destruct (runs_kept k H slow hash skip all Z res Hsol Hg r outs HR Hall l c out p Hlast Hlen Hp (Hne p Hp)) as [fs Hfs].
  unfold with_files in Hfs. apply map_filter_lookup_Some in Hfs as [Hfs Hx]. by exists fs.
Qed.
Print Assumptions C38_resume_at_last_partial.

(** The example history in two runs: a1, b2, c3 and the merge d4 first; then, with e5 added to the repository, c3, d4 and e5. *)
Example C38_hypotheses_hold :
  run_given ex_hist (ex_slow ex_hist) 3 (ex_env ex_hist id_orders) [] ex_commits /\
  runs ex_hash no_skip ex_hist (ex_slow ex_hist) 3 (s_repo ex_s2) [(ex_cs1, s_out ex_s1); (ex_cs2, s_out ex_s2)] /\
  (forall cs out c, (cs, out) ∈ [(ex_cs1, s_out ex_s1); (ex_cs2, s_out ex_s2)] -> c ∈ cs -> c ∈ ex_commits).
Proof.
  split.
  { split; [exact ex_valid|lia|exact (ex_slow_right ex_hist)|exact ex_acyclic|exact (ex_env_right ex_hist id_orders id_orders_any)|exact ex_parents_first|].
    intros c Hc. split; [by apply ex_all_known|by apply ex_plain]. }
  split; [exact ex_runs|]. intros cs out c Hin Hc.
  assert (Hcs : cs = ex_cs1 \/ cs = ex_cs2).
  { apply elem_of_cons in Hin as [Hin|Hin]; [left; congruence|]. apply elem_of_list_singleton in Hin. right. congruence. }
  destruct Hcs as [-> | ->]; repeat (apply elem_of_cons in Hc as [->|Hc]; [in_list|]); by apply elem_of_nil in Hc.
Qed.

(** In general it fails: in a repository whose first commit is empty, the full run and a first run over the first two commits
    succeed; the next one, starting at the second commit (b2^..HEAD: b2 and c3, with the parent a1), panics. *)
Theorem C38_refuted :
  exists H slow e P P' s s1 m, run_given H slow 3 e [] [a1; b2; c3] /\ hparents H b2 = [a1] /\ hparents H c3 = [b2] /\
    process_log e (pst_init ∅) (map commit_of (git_log H [a1; b2; c3])) = (s, Ret tt) /\
    process_log e (pst_init ∅) (map commit_of (git_log H [a1; b2])) = (s1, Ret tt) /\
    values P = s_repo s1 /\ sound P /\ encodable ex_hash P /\ no_collision ex_hash P /\ saved_as ex_hash no_skip P P' /\
    run_given H slow 3 e [a1] [b2; c3] /\
    (process_log e (pst_init (values P')) (map commit_of (git_log H [b2; c3]))).2 = Panic m.
Proof.
  exists ex5_hist, (ex_slow ex5_hist), (ex_env ex5_hist id_orders), ex5_P, ex5_P'.
  eexists. exists ex5_s1, (B "commit not found").
  split. { apply ex5_given; [|done]. repeat (split; [in_list|split; [parents_known|]]). exact I. }
  split; [vm_compute; reflexivity|]. split; [vm_compute; reflexivity|].
  split; [apply pair_ret; [reflexivity|vm_compute; reflexivity]|]. split; [exact ex5_run1|]. split; [exact ex5_P_values|].
  split; [apply unshared_sound|]. split; [apply encb_ok; vm_compute; reflexivity|]. split; [apply ncb_ok; vm_compute; reflexivity|].
  split; [exact ex5_saved|]. split.
  { apply ex5_given; [repeat (split; [in_list|split; [parents_known|]]); exact I|].
    intros c Hc. repeat (apply elem_of_cons in Hc as [->|Hc]; [in_list|]). by apply elem_of_nil in Hc. }
  vm_compute. reflexivity.
Qed.
Print Assumptions C38_refuted.

(** ** C39: strict resume *)
Theorem C39_strict skip e o s log :
  log <> [] -> po_from o <> [] -> po_nostrict o = false ->
  match fs_cp s ≫= fun d : dir => d !! n_version with
  | Some v => v = po_from o \/ run_top skip e o s log = ([], Err (B "Could not read checkpoint: " ++ not_expected (po_from o) v), None)
  | None => exists m, run_top skip e o s log = ([], Err m, None)
  end.
Proof.
  intros Hl Hf Hn. destruct log as [|lc log]; [done|]. unfold run_top, init_checkpoints. rewrite decide_False by done. rewrite Hn.
  unfold read_checkpoint. cbv zeta. destruct (fs_cp s) as [d|]; cbn [mbind option_bind].
  - change (default (∅ : dir) (Some d)) with d. destruct (d !! n_version) as [v|] eqn:Ev; rewrite decide_True by done.
    + destruct (decide (v = po_from o)) as [->|Hv]; [by left|right]. rewrite decide_True by done. cbn. reflexivity.
    + cbn. by eexists.
  - rewrite decide_True by done. change (default (∅ : dir) None) with (∅ : dir). rewrite lookup_empty. cbn. by eexists.
Qed.
Print Assumptions C39_strict.
(** The message names both commits. *)
Theorem C39_names_both want have : exists a b, not_expected want have = a ++ want ++ b ++ have.
Proof. unfold not_expected. by eexists _, _. Qed.
Print Assumptions C39_names_both.
Example C39_hypotheses_hold :
  let s := FS None (Some {[ n_version := a1 ]}) in let o := POpts b2 false false false [] in
  run_top no_skip (ex_env ex_hist id_orders) o s [LCommit b2 [] []] =
    ([], Err (B "Could not read checkpoint: ripsrc: requested checkpoint for commit b2, have checkpoint for commit a1"), None).
Proof. vm_compute. reflexivity. Qed.

(** ** C40: a crash while writing

    [c] and [v]: the new files and version; [s]: the directory before, with or without an old checkpoint.  Whatever operation
    the crash comes after, a read gives what it gave before, or the complete new checkpoint, or an error. *)
Theorem C40_crash_consistent skip s o1 o2 chunks vchunks c v j expected :
  removal_order o1 -> removal_order o2 -> writes_of c v chunks vchunks ->
  let s' := apply_ops s (take j (write_ops s o1 o2 chunks vchunks)) in
  read_checkpoint skip s' expected = read_checkpoint skip s expected \/
  ((expected = [] \/ expected = v) /\ read_checkpoint skip s' expected = read_files skip c) \/
  exists m, read_checkpoint skip s' expected = Err m.
Proof.
  intros Ho1 Ho2 Hw s'. pose proof (crash_points s o1 o2 chunks vchunks c v j Ho1 Ho2 Hw) as Hs. fold s' in Hs. destruct Hs as [j s' Hj Hcp|j t s' Hj Ht Hh Hsub|j t Hj Hh].
  - left. unfold read_checkpoint. by rewrite Hcp.
  - destruct (read_sub skip s s' expected Hsub) as [?|?]; [by left|right; by right].
  - right. rewrite (read_holds skip t c v expected None Hh). case_decide as Hd; [by left|right; by eexists].
Qed.
Print Assumptions C40_crash_consistent.
(** A Write that completes gives the new checkpoint. *)
Theorem C40_complete_write skip s o1 o2 chunks vchunks c v expected :
  removal_order o1 -> removal_order o2 -> writes_of c v chunks vchunks ->
  read_checkpoint skip (apply_ops s (write_ops s o1 o2 chunks vchunks)) expected =
    if decide (expected = [] \/ expected = v) then read_files skip c else Err (not_expected expected v).
Proof. intros Ho1 Ho2 Hw. destruct (complete_write s o1 o2 chunks vchunks c v Ho1 Ho2 Hw) as (t & -> & Hh). by apply read_holds. Qed.
Print Assumptions C40_complete_write.
(** It leaves the five files of the new checkpoint and nothing else, whatever was there before. *)
Theorem C40_complete_directory s o1 o2 chunks vchunks c v :
  removal_order o1 -> removal_order o2 -> writes_of c v chunks vchunks ->
  fs_tmp (apply_ops s (write_ops s o1 o2 chunks vchunks)) = None /\
  exists t, fs_cp (apply_ops s (write_ops s o1 o2 chunks vchunks)) = Some t /\ holds t c v.
Proof. intros Ho1 Ho2 Hw. destruct (complete_write s o1 o2 chunks vchunks c v Ho1 Ho2 Hw) as (t & -> & Hh). split; [done|]. by exists t. Qed.
Print Assumptions C40_complete_directory.

(** An old checkpoint in place, left-over files in tmp, the new files written in pieces. *)
Definition ex40_chunks := [(n_blames, B "b1"); (n_repo, B "r"); (n_blames, B "b2"); (n_ldata, B "d")].
Definition ex40_old : dir := {[ n_repo := B "R"; n_blames := B "B"; n_lines := []; n_ldata := B "D"; n_version := a1 ]}.
Definition ex40 : fs := FS (Some {[ dot_tmp n_repo := B "junk" ]}) (Some ex40_old).
Example C40_hypotheses_hold :
  writes_of (CFiles (B "r") (B "b1b2") [] (B "d")) b2 ex40_chunks [b2] /\ holds ex40_old (CFiles (B "R") (B "B") [] (B "D")) a1 /\
  length (write_ops ex40 id id ex40_chunks [b2]) = 28 /\ removal_order id.
Proof.
  split; [|split; [|split; [vm_compute; reflexivity|by intros l]]].
  2: { split; [reflexivity|]. split; [reflexivity|]. split; [reflexivity|]. split; [reflexivity|]. split; [reflexivity|].
       intros n Hn. rewrite !not_elem_of_cons in Hn. destruct Hn as (N1 & N2 & N3 & N4 & N5 & _).
       unfold ex40_old. rewrite !lookup_insert_ne by (by apply not_eq_sym). apply lookup_singleton_ne. by apply not_eq_sym. }
  split; [intros x Hx; repeat (apply elem_of_cons in Hx as [->|Hx]; [in_list|]); by apply elem_of_nil in Hx|]. repeat split.
Qed.

(** ** C41: a crash never loses both checkpoints: this fails

    Every Write passes through a point at which no checkpoint can be read, whatever there was before. *)
Theorem C41_refuted skip s o1 o2 chunks vchunks : removal_order o2 ->
  exists j, j < length (write_ops s o1 o2 chunks vchunks) /\
    forall expected, exists m, read_checkpoint skip (apply_ops s (take j (write_ops s o1 o2 chunks vchunks))) expected = Err m.
Proof.
  intros Ho2. destruct (gone_point s o1 o2 chunks vchunks Ho2) as (j & s' & E & Hcp & Hj). exists j. split; [exact Hj|]. intros expected. rewrite E.
  unfold read_checkpoint. rewrite Hcp. change (default (∅ : dir) None) with (∅ : dir). cbv zeta. case_decide.
  - rewrite lookup_empty. cbn. by eexists.
  - cbn [obind]. unfold read_dir, open_file. rewrite lookup_empty. cbn. by eexists.
Qed.
Print Assumptions C41_refuted.
(** What holds: at each point the old checkpoint is untouched, or the new one is complete on disk, in place or under the
    temporary name (where no reader looks and which the next Write removes); and a later Write succeeds from any state. *)
Theorem C41_on_disk_partial s o1 o2 chunks vchunks c v j :
  removal_order o1 -> removal_order o2 -> writes_of c v chunks vchunks ->
  let s' := apply_ops s (take j (write_ops s o1 o2 chunks vchunks)) in
  fs_cp s' = fs_cp s \/ (exists t, fs_tmp s' = Some t /\ holds t c v) \/ (exists t, fs_cp s' = Some t /\ holds t c v).
Proof.
  intros Ho1 Ho2 Hw s'. pose proof (crash_points s o1 o2 chunks vchunks c v j Ho1 Ho2 Hw) as Hs. fold s' in Hs. destruct Hs as [j s' Hj Hcp|j t s' Hj Ht Hh Hsub|j t Hj Hh].
  - by left.
  - right. left. by exists t.
  - right. right. by exists t.
Qed.
Print Assumptions C41_on_disk_partial.
Theorem C41_later_write_partial skip s o1 o2 chunks vchunks c v j o3 o4 chunks2 vchunks2 c2 v2 P :
  removal_order o3 -> removal_order o4 -> writes_of c v chunks vchunks -> writes_of c2 v2 chunks2 vchunks2 -> read_files skip c2 = Ret P ->
  let s' := apply_ops s (take j (write_ops s o1 o2 chunks vchunks)) in
  read_checkpoint skip (apply_ops s' (write_ops s' o3 o4 chunks2 vchunks2)) v2 = Ret P.
Proof.
  intros Ho3 Ho4 Hw Hw2 HP s'. destruct (complete_write s' o3 o4 chunks2 vchunks2 c2 v2 Ho3 Ho4 Hw2) as (t & -> & Hh).
  rewrite (read_holds skip t c2 v2 v2 None Hh). rewrite decide_True by (by right). exact HP.
Qed.
Print Assumptions C41_later_write_partial.

(** ** C42: truncated files

    A "repo" file cut at the end of a record goes unnoticed: reading gives exactly the files before the cut. *)
Theorem C42_refuted hash skip S o1 o2 n :
  sound S -> encodable hash S -> any_perm o1 -> (forall c, any_perm (o2 c)) -> n < length (file_list S o1 o2) ->
  exists w, write_records hash S o1 o2 = Ret w /\
    exists p P, cut p (cf_repo (encode_files w)) /\
      read_files skip (CFiles p (cf_blames (encode_files w)) (cf_lines (encode_files w)) (cf_ldata (encode_files w))) = Ret P /\
      forall c f, is_Some (blame_at P c f) <-> exists b, (c, (f, b)) ∈ take n (file_list S o1 o2).
Proof.
  intros Hs He H1 H2 Hn. destruct (roundtrip_iso hash S o1 o2 Hs H1 H2) as (w & Ew & ol & ob & HW & R' & ER & HI). exists w. split; [exact Ew|].
  assert (HL : forall x, x ∈ file_list S o1 o2 -> blame_at S x.1 x.2.1 = Some x.2.2).
  { intros (c & f & b) Hx. by apply (file_list_elem S o1 o2). }
  destruct (records_wf hash S w ol ob _ Hs He HW HL) as (W1 & W2 & W3 & W4).
  pose proof (w_rows _ _ _ _ _ _ HW) as HF. pose proof (Forall2_length _ _ _ HF) as Hlen.
  destruct (cut_rows hash S w ol ob _ HW HL n R' ER) as (P & EP & HP).
  exists (write_stream enc_row (take n (ws_rows w))), P. split; [|split].
  - exists (write_stream enc_row (drop n (ws_rows w))). split.
    + intros E. pose proof (stream_length wf_row enc_row (dec_row skip) (codec_row skip) (drop n (ws_rows w))) as Hl. rewrite E, drop_length in Hl. cbn in Hl. lia.
    + cbn [encode_files cf_repo]. rewrite <-(take_drop n (ws_rows w)) at 1. unfold write_stream. by rewrite map_app, concat_app.
  - unfold read_files, encode_files. cbn [cf_repo cf_blames cf_lines cf_ldata].
    rewrite (stream_ok _ _ _ (codec_row skip) (take n (ws_rows w))); [|by apply Forall_take].
    by rewrite (stream_ok _ _ _ (codec_blame skip) _ W2), (stream_ok _ _ _ (codec_line skip) _ W3), (stream_ok _ _ _ (codec_ldata skip) _ W4).
  - intros c f. rewrite HP. apply (Forall2_take _ _ _ n) in HF. split.
    + intros (d & Hd & Hc & Hf). apply elem_of_list_lookup in Hd as [i Hi]. destruct (Forall2_lookup_r _ _ _ _ _ HF Hi) as ((c' & f' & b) & Hx & m & _ & ->).
      cbn in Hc, Hf. subst c' f'. exists b. by eapply elem_of_list_lookup_2.
    + intros (b & Hb). apply elem_of_list_lookup in Hb as [i Hi]. destruct (Forall2_lookup_l _ _ _ _ _ HF Hi) as (d & Hd & m & _ & ->).
      eexists. split; [by eapply elem_of_list_lookup_2|]. done.
Qed.
Print Assumptions C42_refuted.
Example C42_hypotheses_hold : length (file_list ex35 id (fun _ => id)) = 3.
Proof. vm_compute. reflexivity. Qed.

Lemma prefix_parts hash skip S o1 o2 w c : sound S -> encodable hash S -> any_perm o1 -> (forall c, any_perm (o2 c)) ->
  write_records hash S o1 o2 = Ret w -> prefix_files c (encode_files w) ->
  exists ol ob P', winv hash S w ol ob (file_list S o1 o2) /\ (forall x, x ∈ file_list S o1 o2 -> blame_at S x.1 x.2.1 = Some x.2.2) /\
    read_records (ws_rows w, true) (ws_blames w, true) (ls_lines (ws_l w), true) (ls_data (ws_l w), true) = Ret P' /\
    read_files skip (encode_files w) = Ret P' /\
    exists n1 n2 n3 n4 f1 f2 f3 f4,
      read_files skip c = read_records (take n1 (ws_rows w), f1) (take n2 (ws_blames w), f2) (take n3 (ls_lines (ws_l w)), f3) (take n4 (ls_data (ws_l w)), f4) /\
      (cf_repo c = cf_repo (encode_files w) -> n1 = length (ws_rows w)) /\
      (cf_blames c <> cf_blames (encode_files w) -> n2 < length (ws_blames w)) /\
      (cf_lines c <> cf_lines (encode_files w) -> n3 < length (ls_lines (ws_l w))) /\
      (cf_ldata c <> cf_ldata (encode_files w) -> n4 < length (ls_data (ws_l w))).
Proof.
  intros Hs He H1 H2 Hw (P1 & P2 & P3 & P4). destruct (roundtrip_iso hash S o1 o2 Hs H1 H2) as (w' & Ew & ol & ob & HW & R' & ER & HI).
  rewrite Hw in Ew. injection Ew as <-.
  assert (HL : forall x, x ∈ file_list S o1 o2 -> blame_at S x.1 x.2.1 = Some x.2.2).
  { intros (c' & f & b) Hx. by apply (file_list_elem S o1 o2). }
  destruct (records_wf hash S w ol ob _ Hs He HW HL) as (W1 & W2 & W3 & W4).
  exists ol, ob, R'. split; [exact HW|]. split; [exact HL|]. split; [exact ER|]. split; [by rewrite files_ok|].
  cbn [encode_files cf_repo cf_blames cf_lines cf_ldata] in *.
  destruct (read_prefix _ _ _ (codec_row skip) _ _ W1 P1) as (n1 & f1 & E1 & C1). destruct (read_prefix _ _ _ (codec_blame skip) _ _ W2 P2) as (n2 & f2 & E2 & C2).
  destruct (read_prefix _ _ _ (codec_line skip) _ _ W3 P3) as (n3 & f3 & E3 & C3). destruct (read_prefix _ _ _ (codec_ldata skip) _ _ W4 P4) as (n4 & f4 & E4 & C4).
  destruct (decide (cf_repo c = write_stream enc_row (ws_rows w))) as [D|D].
  - rewrite D, (stream_ok _ _ _ (codec_row skip) _ W1) in E1. injection E1 as E1 <-.
    exists (length (ws_rows w)), n2, n3, n4, true, f2, f3, f4. split; [|split; [done|split; [tauto|split; tauto]]].
    unfold read_files. rewrite D, (stream_ok _ _ _ (codec_row skip) _ W1), E2, E3, E4, firstn_all. done.
  - exists n1, n2, n3, n4, f1, f2, f3, f4. split; [|split; [done|split; [tauto|split; tauto]]].
    unfold read_files. rewrite E1, E2, E3, E4. done.
Qed.

(** As long as the "repo" file is complete, any truncation of the other three is detected. *)
Theorem C42_other_files_detected hash skip S o1 o2 w c P :
  sound S -> encodable hash S -> any_perm o1 -> (forall c, any_perm (o2 c)) -> write_records hash S o1 o2 = Ret w ->
  prefix_files c (encode_files w) -> cf_repo c = cf_repo (encode_files w) -> c <> encode_files w -> read_files skip c <> Ret P.
Proof.
  intros Hs He H1 H2 Hw Hp Hr Hc.
  destruct (prefix_parts hash skip S o1 o2 w c Hs He H1 H2 Hw Hp) as (ol & ob & P' & HW & HL & _ & _ & n1 & n2 & n3 & n4 & f1 & f2 & f3 & f4 & -> & N1 & N2 & N3 & N4).
  rewrite (N1 Hr), firstn_all. apply (cut_any hash S w ol ob _ HW HL).
  destruct (decide (cf_blames c = cf_blames (encode_files w))) as [E2|E2]; [|left; by apply N2].
  destruct (decide (cf_lines c = cf_lines (encode_files w))) as [E3|E3]; [|right; left; by apply N3].
  destruct (decide (cf_ldata c = cf_ldata (encode_files w))) as [E4|E4]; [|right; right; by apply N4].
  exfalso. apply Hc. destruct c, (encode_files w); cbn in *. by subst.
Qed.
Print Assumptions C42_other_files_detected.
(** And whatever is cut, nothing wrong is read: each file read has the value it has in the complete checkpoint. *)
Theorem C42_never_wrong_partial hash skip S o1 o2 w c P P' :
  sound S -> encodable hash S -> any_perm o1 -> (forall c, any_perm (o2 c)) -> write_records hash S o1 o2 = Ret w ->
  prefix_files c (encode_files w) -> read_files skip c = Ret P -> read_files skip (encode_files w) = Ret P' -> part_of P P'.
Proof.
  intros Hs He H1 H2 Hw Hp HP HP'.
  destruct (prefix_parts hash skip S o1 o2 w c Hs He H1 H2 Hw Hp) as (ol & ob & P2 & HW & HL & E0 & E & n1 & n2 & n3 & n4 & f1 & f2 & f3 & f4 & E' & _).
  rewrite HP' in E. injection E as <-. rewrite E' in HP. exact (prefix_below hash S w ol ob _ HW HL n1 n2 n3 n4 f1 f2 f3 f4 P P' E0 HP).
Qed.
Print Assumptions C42_never_wrong_partial.

(** ** C43: the on-disk records

    [skip] stands for the reader's treatment of unknown fields, which plays no role. *)
Theorem C43_records skip :
  (forall z rest, wf_row z -> dec_row skip (enc_row z ++ rest) = DOk z rest) /\
  (forall z rest, wf_dblame z -> dec_blame skip (enc_blame z ++ rest) = DOk z rest) /\
  (forall z rest, wf_dline z -> dec_line skip (enc_line z ++ rest) = DOk z rest) /\
  (forall z rest, wf_ldata z -> dec_ldata skip (enc_ldata z ++ rest) = DOk z rest).
Proof.
  split; [exact (co_dec _ _ _ (codec_row skip))|]. split; [exact (co_dec _ _ _ (codec_blame skip))|].
  split; [exact (co_dec _ _ _ (codec_line skip))|exact (co_dec _ _ _ (codec_ldata skip))].
Qed.
Print Assumptions C43_records.
Theorem C43_streams skip :
  (forall l, Forall wf_row l -> read_stream (dec_row skip) (write_stream enc_row l) = (l, true)) /\
  (forall l, Forall wf_dblame l -> read_stream (dec_blame skip) (write_stream enc_blame l) = (l, true)) /\
  (forall l, Forall wf_dline l -> read_stream (dec_line skip) (write_stream enc_line l) = (l, true)) /\
  (forall l, Forall wf_ldata l -> read_stream (dec_ldata skip) (write_stream enc_ldata l) = (l, true)).
Proof.
  split; [exact (stream_ok _ _ _ (codec_row skip))|]. split; [exact (stream_ok _ _ _ (codec_blame skip))|].
  split; [exact (stream_ok _ _ _ (codec_line skip))|exact (stream_ok _ _ _ (codec_ldata skip))].
Qed.
Print Assumptions C43_streams.
(** A record cut anywhere is never taken for a record. *)
Theorem C43_cut_record skip :
  (forall z p r z', wf_row z -> cut p (enc_row z) -> dec_row skip p <> DOk z' r) /\
  (forall z p r z', wf_dblame z -> cut p (enc_blame z) -> dec_blame skip p <> DOk z' r) /\
  (forall z p r z', wf_dline z -> cut p (enc_line z) -> dec_line skip p <> DOk z' r) /\
  (forall z p r z', wf_ldata z -> cut p (enc_ldata z) -> dec_ldata skip p <> DOk z' r).
Proof.
  split; [|split; [|split]]; intros z p r z' Hz Hc E.
  - destruct (co_cut _ _ _ (codec_row skip) z p Hz Hc); congruence.
  - destruct (co_cut _ _ _ (codec_blame skip) z p Hz Hc); congruence.
  - destruct (co_cut _ _ _ (codec_line skip) z p Hz Hc); congruence.
  - destruct (co_cut _ _ _ (codec_ldata skip) z p Hz Hc); congruence.
Qed.
Print Assumptions C43_cut_record.
Example C43_hypotheses_hold :
  wf_dblame (DBlame 18446744073709551615 a1 [0; 127; 128; 65536; 4294967296]%N true) /\ wf_ldata (DLData 256 (x_ ++ y_)) /\
  wf_row (DRow a1 [] 1) /\ wf_dline (DLine 7 [] 3).
Proof.
  split; [|split; [|split]].
  - split; [vm_compute; reflexivity|]. split; [vm_compute; reflexivity|]. split; [|vm_compute; reflexivity].
    repeat (apply Forall_cons; split; [vm_compute; reflexivity|]). apply Forall_nil. exact I.
  - split; vm_compute; reflexivity.
  - split; [vm_compute; reflexivity|]. split; vm_compute; reflexivity.
  - split; [vm_compute; reflexivity|]. split; vm_compute; reflexivity.
Qed.

(** ** C44: CommitFromMakeNonIncl and checkpoints: the option has no influence on them *)
Definition with_nonincl (b : bool) (o : popts) : popts := POpts (po_from o) (po_nostrict o) b (po_all o) (po_refs o).
Theorem C44_refuted skip e o s log :
  (* with and without the option a checkpoint is read and written all the same *)
  run_top skip e (with_nonincl true o) s log = run_top skip e (with_nonincl false o) s log /\
  (* and a run with it fails when there is no checkpoint to read *)
  (log <> [] -> po_from o <> [] -> fs_cp s = None -> exists m, run_top skip e (with_nonincl true o) s log = ([], Err m, None)).
Proof.
  split; [done|]. intros Hl Hf Hc. destruct log as [|lc log]; [done|]. unfold run_top, init_checkpoints. cbn [with_nonincl po_from po_nostrict].
  rewrite decide_False by done. unfold read_checkpoint. rewrite Hc. change (default (∅ : dir) None) with (∅ : dir). cbv zeta.
  case_decide; [rewrite lookup_empty; cbn; by eexists|]. cbn [obind]. unfold read_dir, open_file. rewrite lookup_empty. cbn. by eexists.
Qed.
Print Assumptions C44_refuted.
(** A run with the option that reads a checkpoint and writes a new one. *)
Example C44_writes :
  let s := FS None (Some {[ n_repo := []; n_blames := []; n_lines := []; n_ldata := []; n_version := a1 ]}) in
  match run_top no_skip (Env {[ b2 := [] ]} ∅ (fun _ _ => Err []) (fun _ => id_orders)) (POpts a1 false true false []) s [LCommit b2 [] []] with
  | (_, Ret _, Some (_, v)) => bool_decide (v = b2)
  | _ => false
  end = true.
Proof. vm_compute. reflexivity. Qed.

(** ** C59: the checkpoint belongs to the last commit of a completed run *)
Theorem C59_written_when_complete_partial skip e o s log out oc w :
  run_top skip e o s log = (out, oc, w) ->
  match w with
  | Some (r, v) => oc = Ret tt /\ v <> [] /\ exists l c, log = l ++ [c] /\ v = lc_hash c
  | None => oc = Ret tt -> log = [] /\ out = []
  end.
Proof.
  unfold run_top. destruct log as [|lc log]; [intros [= <- <- <-]; done|]. destruct (init_checkpoints skip o s) as [r| |]; [|intros [= <- <- <-]; done..].
  destruct (exists_last (l := lc :: log)) as (l & c & E); [done|]. rewrite E.
  destruct (process_log e (pst_init r) (l ++ [c])) as [s' [[]| |]] eqn:Ep; cbn [fst snd]; [|intros [= <- <- <-]; done..].
  apply log_last in Ep. case_decide as Hd; intros [= <- <- <-]; [done|]. split; [done|]. split; [done|]. by exists l, c.
Qed.
Print Assumptions C59_written_when_complete_partial.
