(** * C82: calls of Code that continue each other *)
From Verif.Model Require Import Base GoStrings IncBlame LogParser ParentsGraph Process Msgp Checkpoint CheckpointFS CommitMeta FileInfo CodeInfo Net Pipeline GitBlame LogArgs Api.
From Verif.Spec Require Import Text UnifiedDiff Attribution GitLog CommitGraph History Processing Checkpoint Resuming Records MetaLog EndToEnd Delivery Selection Porcelain GitAnswers Continuing.
From Verif.Proofs Require Import TextLemmas GraphExamples MetaNames MetaParse ParentsGraphProofs SelectionProofs ProcessExamples CheckpointExamples CheckpointProofs CheckpointFiles ProcessLoop RecordProofs RecordMore EndToEndProofs EndToEndRun ResumeTop ApiProofs IncrementalProofs.
From Verif.Props Require Import MetaProps ProcessProps RecordProps PipelineProps GraphProps GitBlameProps CheckpointProps EndToEndProps SelectionProps ApiProps.
From Coq Require Import Lia.

(** C82: a call with CommitFromIncl that begins after the commit [p] (with CommitFromMakeNonIncl that is CommitFromIncl, without it the first
    parent of CommitFromIncl) and finds a right checkpoint with the parents it needs: the caller receives, for each commit on HEAD that [p] does
    not descend from, exactly once and parents first, exactly the right records; the channel is closed, the call returns, and what is written as
    the new checkpoint is right again.  Lines of commits not listed have no author and date.

    Partial: the restrictions of [usable] (as in C60). *)
Theorem C82_incremental_call_partial {T L} (zt : T) parse_date (cl : classifiers L) count orders graph_order merge_orders skip disk write_err git tmp repo_dir o k R H about t0 t1 p P0 :
  usable k parse_date R H about -> answers R H about git (if ro_all o then [B "--all"] else []) [range_of o] ->
  Selection.simple_name (ro_from o) -> starts_after R o p ->
  read_checkpoint skip disk (if ro_nostrict o then [] else ro_from o) = Ret P0 -> checkpoint_right H (fallback git) (values P0) ->
  (forall c q, since R p c -> parent (g_parents R) c q -> reaches (g_parents R) p q -> is_Some (values P0 !! q)) ->
  tmp 0 = Ret t0 -> tmp 1 = Ret t1 ->
  (forall n, any_perm (orders n)) -> (forall g, graph_order g ≡ₚ map_to_list g) -> (forall c, any_orders (merge_orders c)) -> detector_works cl ->
  exists s, code_setup zt parse_date graph_order git tmp repo_dir o = Ret s /\
  let act := api_act zt cl count orders merge_orders skip disk write_err git o s in
  exists cs xs w, lists_exactly cs (since R p) /\ children_last (g_parents R) cs /\
    Forall2 (commit_records_right H (fallback git) (line_since zt (map about cs))) cs xs /\
    leaves_checkpoint H (fallback git) (values P0) cs w /\ delivers act write_err (concat xs) w.
Proof.
  intros HU HA Hn (f & Hf & Hp) HP0 Hr0 Hpres Ht0 Ht1 Hord Hgo Hmo Hdet.
  assert (Hne : ro_from o <> []) by apply Hn.
  assert (Er : patch_revs o = [range_of o]).
  { unfold patch_revs, log_revs, range_of. cbn [process_opts po_from po_all po_refs po_nonincl]. rewrite decide_True by done. by destruct (ro_all o), (ro_nonincl o). }
  assert (Hsh : forall c, shows R (patch_revs o) c <-> since R p c).
  { intros c. destruct (ro_nonincl o) eqn:Hi; [rewrite Hp; by apply (C68_incremental_without_it R o f)|]. destruct Hp as [ps Hp]. by apply (C68_incremental R o f p ps). }
  pose proof (us_same _ _ _ _ _ HU) as Hsame.
  destruct (ApiProofs.call_delivers zt parse_date graph_order merge_orders git tmp repo_dir o k R H about HU ltac:(rewrite Er; exact HA) t0 t1 Ht0 Ht1 Hgo Hmo) with
    (r0 := values P0) (cl := cl) (count := count) (orders := orders) (skip := skip) (disk := disk) (write_err := write_err)
    as (s & Es & cs & xs & w & Hcs & Hlast & HF & Hrest).
  - intros c Hc. apply Hsh in Hc as [Hc _]. exists (g_head R). split; [by left|exact Hc].
  - exact Hr0.
  - intros c q Hc Hq Hnq. rewrite Hsame in Hq. apply Hsh in Hc. destruct (values P0 !! q) as [fs|] eqn:Eq; [by eexists|]. exfalso. apply Hnq, Hsh. destruct Hc as [Hc Hpc].
    split; [by eapply rtc_r|]. intros Hr. destruct (Hpres c q (conj Hc Hpc) Hq Hr) as [fs Hfs]. by rewrite Eq in Hfs.
  - exact Hord.
  - exact Hdet.
  - unfold init_checkpoints. cbn [process_opts po_from po_nostrict]. rewrite decide_False by done. by rewrite HP0.
  - exists s. split; [exact Es|]. cbv zeta. exists cs, xs, w. split; [destruct Hcs as [H1 H2]; split; [exact H1|]; intros x; by rewrite H2, Hsh|]. split; [exact Hlast|]. split; [|exact Hrest].
    destruct (decide (values P0 = ∅)); [|exact HF]. eapply Forall2_impl; [exact HF|]. intros c rs. apply records_mono. intros l bl Hl. by left.
Qed.
Print Assumptions C82_incremental_call_partial.

(** C82: the checkpoint that is found may be the one an earlier call left, when the repository had the history [H1] and now has the history
    [H].  [r], [v]: what that call passed to Write; it was written to the disk, however the writes were split.  Then a call with
    CommitFromIncl = [v] works, if the old parents of new commits were in [r] and are no empty trees (which are lost, C37). *)
Theorem C82_next_call_partial {T L} (zt : T) parse_date (cl : classifiers L) count orders graph_order merge_orders skip disk write_err git tmp repo_dir o k R H about t0 t1
    hash H1 git1 r p :
  valid_history k H1 -> checkpoint_right H1 (fallback git1) r -> is_Some (hi_parents H1 !! ro_from o) -> saved_on hash r (ro_from o) disk -> grown H1 git1 H git ->
  usable k parse_date R H about -> answers R H about git (if ro_all o then [B "--all"] else []) [range_of o] -> starts_after R o p ->
  (forall c q, since R p c -> parent (g_parents R) c q -> reaches (g_parents R) p q -> is_Some (r !! q) /\ hi_tree H q <> ∅) ->
  tmp 0 = Ret t0 -> tmp 1 = Ret t1 ->
  (forall n, any_perm (orders n)) -> (forall g, graph_order g ≡ₚ map_to_list g) -> (forall c, any_orders (merge_orders c)) -> detector_works cl ->
  exists s, code_setup zt parse_date graph_order git tmp repo_dir o = Ret s /\
  let act := api_act zt cl count orders merge_orders skip disk write_err git o s in
  exists cs xs w, lists_exactly cs (since R p) /\ children_last (g_parents R) cs /\
    Forall2 (commit_records_right H (fallback git) (line_since zt (map about cs))) cs xs /\
    leaves_checkpoint H (fallback git) (with_files r) cs w /\ delivers act write_err (concat xs) w.
Proof.
  intros HV1 Hr Hv (P & o1 & o2 & files & d & r1 & r2 & chunks & vchunks & HPv & Hs & He & Hnc & Ho1 & Ho2 & Hr1 & Hr2 & Hw & Hch & ->) [HE Hbl] HU HA Hst Hold Ht0 Ht1 Hord Hgo Hmo Hdet.
  destruct (files_iso hash skip P o1 o2 Hs He Ho1 Ho2) as (files' & P' & ob & ol & Hw' & Hrd & HI). rewrite Hw in Hw'. injection Hw' as <-.
  pose proof (iso_values _ _ _ _ _ HI Hnc) as Hval. rewrite HPv in Hval.
  assert (Hread : forall e, e = [] \/ e = ro_from o -> read_checkpoint skip (apply_ops d (write_ops d r1 r2 chunks vchunks)) e = Ret P').
  { intros e Hx. rewrite (C40_complete_write skip d r1 r2 chunks vchunks (encode_files files) (ro_from o) e Hr1 Hr2 Hch). by rewrite decide_True. }
  assert (Hkv : is_Some (hi_parents H !! ro_from o)) by (by apply (ext_known H1 H HE)).
  assert (Hid : commit_id (ro_from o)) by (by destruct (proj2 (us_valid _ _ _ _ _ HU) _ Hkv)).
  assert (Hright : checkpoint_right H (fallback git) r).
  { apply (grown_right H1 H HE (proj1 HV1) (fallback git1)); [|exact Hr]. intros c f Hc. unfold fallback, slow_git_blame, git_blame, blame_args. pose proof (Hbl NoContext c f Hc) as Eb. rewrite Eb. reflexivity. }
  rewrite <- Hval.
  apply (C82_incremental_call_partial zt parse_date cl count orders graph_order merge_orders skip _ write_err git tmp repo_dir o k R H about t0 t1 p P'); try done.
  - by apply id_simple.
  - apply Hread. destruct (ro_nostrict o); tauto.
  - rewrite Hval. by apply right_with_files.
  - intros c q Hc Hq Hpq. rewrite Hval. destruct (Hold c q Hc Hq Hpq) as [Hin Hne]. by apply (kept_with_files H (fallback git)).
Qed.
Print Assumptions C82_next_call_partial.

(** C82: two calls.  The first reads everything, returned without an error and left [r], [v]; the second continues at [v].  It works if the old
    parents of new commits are [v], or parents of [v] (at most 1000), or if the first call was about commits with at most 1000 parents. *)
Theorem C82_two_calls_partial {T L} (zt : T) parse_date (cl : classifiers L) count orders graph_order merge_orders skip disk write_err git tmp repo_dir o k R H about t0 t1
    hash orders1 graph_order1 merge_orders1 disk0 write_err1 git1 tmp1 repo_dir1 o0 R1 H1 about1 t2 t3 s1 c1 r p :
  usable k parse_date R1 H1 about1 -> answers R1 H1 about1 git1 (if ro_all o0 then [B "--all"] else []) (if ro_all o0 then [B "--all"] else []) -> ro_from o0 = [] -> tmp1 0 = Ret t2 -> tmp1 1 = Ret t3 ->
  (forall n, any_perm (orders1 n)) -> (forall g, graph_order1 g ≡ₚ map_to_list g) -> (forall c, any_orders (merge_orders1 c)) ->
  code_setup zt parse_date graph_order1 git1 tmp1 repo_dir1 o0 = Ret s1 ->
  rtc (step (api_act zt cl count orders1 merge_orders1 skip disk0 write_err1 git1 o0 s1)) code_call c1 -> final (api_act zt cl count orders1 merge_orders1 skip disk0 write_err1 git1 o0 s1) c1 ->
  returned c1 = Some (Ret tt, Some (r, ro_from o)) -> saved_on hash r (ro_from o) disk -> grown H1 git1 H git ->
  usable k parse_date R H about -> answers R H about git (if ro_all o then [B "--all"] else []) [range_of o] -> starts_after R o p -> named R (ro_from o) = Some (ro_from o) ->
  (forall c q, since R p c -> parent (g_parents R) c q -> reaches (g_parents R) p q -> hi_tree H q <> ∅ /\
    (q = ro_from o \/ (q ∈ hparents H (ro_from o) /\ length (hparents H (ro_from o)) <= 1000) \/ few_parents (g_parents R1) (selected R1 (ro_all o0)))) ->
  tmp 0 = Ret t0 -> tmp 1 = Ret t1 ->
  (forall n, any_perm (orders n)) -> (forall g, graph_order g ≡ₚ map_to_list g) -> (forall c, any_orders (merge_orders c)) -> detector_works cl ->
  exists s, code_setup zt parse_date graph_order git tmp repo_dir o = Ret s /\
  let act := api_act zt cl count orders merge_orders skip disk write_err git o s in
  exists cs xs w, lists_exactly cs (since R p) /\ children_last (g_parents R) cs /\
    Forall2 (commit_records_right H (fallback git) (line_since zt (map about cs))) cs xs /\
    leaves_checkpoint H (fallback git) (with_files r) cs w /\ delivers act write_err (concat xs) w.
Proof.
  intros HU1 HA1 Hfrom1 Ht2 Ht3 Hord1 Hgo1 Hmo1 Es1 Hc1 Hfin1 Hret1 Hsaved HG HU HA Hst Hname Hold Ht0 Ht1 Hord Hgo Hmo Hdet.
  destruct (C77_code_call_partial zt parse_date cl count orders1 graph_order1 merge_orders1 skip disk0 write_err1 git1 tmp1 repo_dir1 o0 k R1 H1 about1 t2 t3 HU1 HA1 Hfrom1 Ht2 Ht3 Hord1 Hgo1 Hmo1 Hdet)
    as (s & Es & cs1 & xs1 & w1 & Hcs1 & _ & _ & Hleft & _ & _ & Hrun). rewrite Es1 in Es. injection Es as <-.
  destruct (Hrun c1 Hc1) as (_ & _ & _ & Hf). destruct (Hf Hfin1) as (_ & _ & _ & Hret). rewrite Hret1 in Hret. injection Hret as _ <-.
  destruct Hleft as (Hv & Hright & Hkv & Hkp & Hka). set (v := ro_from o) in *.
  assert (Hvs : selected R1 (ro_all o0) v) by (apply last_Some in Hv as (l & ->); apply Hcs1, elem_of_app; right; left).
  assert (Hknown : is_Some (hi_parents H1 !! v)) by (by apply (selected_in parse_date o0 k R1 H1 about1 HU1)).
  apply (C82_next_call_partial zt parse_date cl count orders graph_order merge_orders skip disk write_err git tmp repo_dir o k R H about t0 t1 hash H1 git1 r p); try done.
  - apply (us_valid _ _ _ _ _ HU1).
  - intros c q Hc Hq Hpq. destruct (Hold c q Hc Hq Hpq) as [Hne Hx]. split; [|exact Hne].
    destruct Hx as [->|[[Hx Hlen]|(l & Hlen & Hl)]]; [exact Hkv| |].
    + destruct HG as [HE _]. rewrite (ext_parents H1 H HE v Hknown) in Hx, Hlen. by apply Hkp.
    + apply (Hka l Hlen).
      * intros c' q' Hc' Hq'. apply (Hl c' q'); [by apply Hcs1|]. by rewrite <- (us_same _ _ _ _ _ HU1).
      * left. apply Hcs1. destruct HG as [HE _].
        assert (Hup : forall x y, reaches (hi_parents H) x y -> selected R1 (ro_all o0) x -> selected R1 (ro_all o0) y).
        { intros x y Hr. induction Hr as [x|x y z Hp _ IH]; [done|]. intros Hx. apply IH. apply (selected_closed parse_date o0 k R1 H1 about1 HU1 x y Hx).
          unfold parent, parents in Hp |- *. destruct (HE x) as (E & _); [by apply (selected_in parse_date o0 k R1 H1 about1 HU1)|]. by rewrite <- E. }
        apply (Hup p q); [by rewrite (us_same _ _ _ _ _ HU)|]. destruct Hst as (f & Hf' & Hp). fold v in Hf'. rewrite Hname in Hf'. injection Hf' as <-. destruct (ro_nonincl o); [by rewrite Hp|].
        destruct Hp as [ps Hp]. apply (Hup v p); [|exact Hvs]. rewrite (us_same _ _ _ _ _ HU). apply rtc_once. unfold parent, parents. rewrite Hp. cbn. left.
Qed.
Print Assumptions C82_two_calls_partial.

(** ** An example: the repository of C77 with one more commit on top of [qb], and the checkpoint a call made when [qb] was HEAD *)
Definition qd : bytes := id_of "d".
Definition n_parents : graph := <[ qd := [qb] ]> q_parents.
Definition n_repo2 : gitrepo := GitRepo n_parents [qd; qc] qd (fun n => if decide (n ∈ [qa; qb; qc; qd]) then Some n else None).
Definition n_hist : history := History n_parents (pick ∅ [(qa, T_a); (qb, T_b); (qc, T_c); (qd, T_d)]) (fun c _ => pick [] [(qa, D_a); (qb, D_ab); (qc, D_ac); (qd, D_bd)] c) ProcessExamples.ex_meta.
Definition n_about (c : bytes) : meta_entry N :=
  if decide (c = qd) then ee_entry qd [qb] (Changes [(ri, Plain "M" f_, MetaLog.Text 1 0); (ri, Plain "A" g_, MetaLog.Text 1 0)]) else q_about c.
Definition n_blame (c f : bytes) : list porcelain :=
  match hi_tree n_hist c !! f with Some e => map (fun t => Porcelain c (B " 1 1 1") [] t) (content_lines (en_content e)) | None => [] end.
Definition n_meta (cs : list bytes) : list bytes := concat (map (fun c => meta_lines (n_about c) ++ [[]]) cs).
(** git, with HEAD at [qd]; only commits since [qb] are asked for, apart from the graph. *)
Definition n_git (_ : bound) (args : list bytes) : outcome bytes :=
  match args with
  | a :: c :: rest =>
    if decide (a = B "rev-parse") then Ret (qd ++ [NL])
    else if decide (a = B "log") then Ret (render_graph (map (fun c => (c, parents (hi_parents n_hist) c)) [qa; qb; qd]))
    else if decide (a = B "blame") then match rest with [_; _; f] => Ret (render_porcelain (n_blame c f)) | _ => Err [] end
    else if decide (rest !! 3 = Some (B "-p")) then Ret (render_log (git_log n_hist [qb; qd]))
    else Ret (unlines (n_meta [qb; qd]))
  | _ => Err []
  end.
(** What the earlier call left. *)
Definition n_left : repo := {[ qa := {[ f_ := Blame qa [Line x_ qa] false ]}; qb := {[ f_ := Blame qb [Line x_ qa; Line y_ qb] false ]} ]}.
Definition n_files : wst := get (WSt 0 ∅ (LSt 0 ∅ ∅ [] []) [] []) (write_records ex_hash (unshared n_left) id (fun _ => id)).
Definition n_chunks : list (bytes * bytes) :=
  [(n_repo, cf_repo (encode_files n_files)); (n_blames, cf_blames (encode_files n_files)); (n_lines, cf_lines (encode_files n_files)); (n_ldata, cf_ldata (encode_files n_files))].
Definition n_opts : ropts := ROpts qb false false false.

Local Ltac ni := (apply not_in_const; reflexivity).
Local Ltac flds := (split; [ni|split; [ni|split; [ni|ni]]]).
Local Ltac wrd := (split; [discriminate|flds]).
Local Ltac txt := (split; [ni|apply ntc_not; ni]).
Local Ltac pth := (split; [discriminate|split; [ni|split; [ni|split; [apply ntc_not; ni|intros ?; discriminate]]]]).
Local Ltac noarrow := (intros (? & ? & E); match type of E with ?x = _ => assert (">"%char ∉ x) as Hn by ni; rewrite E in Hn; apply Hn, elem_of_app; right; right; right; left end).
Local Ltac hdrs := (split; [wrd|split; [repeat (apply Forall_cons_2; [wrd|]); apply Forall_nil_2|split; [txt|split; [txt|split; [txt|split; [txt|split; [wrd|split; [apply TrimProofs.bare_solid; repeat (apply Forall_cons; split; [reflexivity|]); by apply Forall_nil|txt]]]]]]]]).
Local Ltac nodup := (apply (bool_decide_unpack _); vm_compute; exact I).
Local Ltac infos := (split; [flds|split; [flds|split; [flds|]]]).
Local Ltac letter := (apply (bool_decide_unpack _); vm_compute; exact I).
Local Ltac plain1 := (infos; split; [split; reflexivity|]; split; [letter|]; split; [pth|]; split; [noarrow|]; left; by left).

Lemma n_known c : is_Some (n_parents !! c) -> c = qd \/ is_Some (q_parents !! c).
Proof. intros Hc. destruct (decide (c = qd)) as [|Hn]; [by left|]. right. unfold n_parents in Hc. by rewrite lookup_insert_ne in Hc. Qed.
Lemma n_not_d c : is_Some (q_parents !! c) -> c <> qd.
Proof. intros Hc ->. destruct (q_known qd Hc) as [E|[E|E]]; discriminate E. Qed.
Lemma n_extends : extends q_hist n_hist.
Proof.
  intros c Hc. pose proof (n_not_d c Hc) as Hn. split; [|split; [|split; [|done]]].
  - cbn [n_hist q_hist hi_parents]. unfold n_parents. by rewrite lookup_insert_ne.
  - destruct (q_known c Hc) as [->|[->| ->]]; reflexivity.
  - destruct (q_known c Hc) as [->|[->| ->]]; reflexivity.
Qed.
Lemma n_hparents c : is_Some (q_parents !! c) -> hparents n_hist c = hparents q_hist c.
Proof. intros Hc. unfold hparents, parents. by destruct (n_extends c Hc) as [-> _]. Qed.
Lemma n_parents_d : hparents n_hist qd = [qb].
Proof. unfold hparents, parents. cbn [n_hist hi_parents]. unfold n_parents. by rewrite lookup_insert. Qed.
Lemma n_valid : valid_history 3 n_hist.
Proof.
  destruct q_valid as [HC HV]. split.
  - intros x y Hp. change (y ∈ hparents n_hist x) in Hp. destruct (decide (x = qd)) as [->|Hn].
    + rewrite n_parents_d in Hp. apply elem_of_list_singleton in Hp as ->. exists [qa]. lk.
    + assert (Hx : is_Some (q_parents !! x)).
      { destruct (q_parents !! x) eqn:E; [by eexists|]. unfold hparents, parents in Hp. cbn [n_hist hi_parents] in Hp. unfold n_parents in Hp. rewrite lookup_insert_ne, E in Hp by done. by apply elem_of_nil in Hp. }
      rewrite (n_hparents x Hx) in Hp. pose proof (HC x y Hp) as Hy. destruct (n_extends y Hy) as [-> _]. exact Hy.
  - intros c Hc. destruct (n_known c Hc) as [->|Hq].
    + split; [split; [discriminate|lk]|]. rewrite n_parents_d. split; [apply Forall_singleton; split; [discriminate|lk]|]. split; [apply NoDup_singleton|].
      split; [split_and!; [by apply const_no_nl|by apply const_no_nl|constructor; [by apply const_no_nl|constructor]]|]. split; [discriminate|].
      intros p Hp. apply elem_of_list_singleton in Hp as ->. exact D_bd_ok.
    + destruct (HV c Hq) as (H1 & H2 & H3 & H4 & H5 & H6). destruct (n_extends c Hq) as (_ & Et & Ed & _). unfold wf_commit. rewrite (n_hparents c Hq), Et, Ed.
      split; [exact H1|]. split; [exact H2|]. split; [exact H3|]. split; [exact H4|]. split; [exact H5|]. intros p Hp. destruct (n_extends p (HC c p Hp)) as (_ & -> & _). by apply H6.
Qed.
Lemma n_acyclic : acyclic (hi_parents n_hist).
Proof. apply (acyclic_check (fun c => if decide (c = qa) then 0 else if decide (c = qd) then 2 else 1)). lk. Qed.
Lemma n_about_ok c : is_Some (hi_parents n_hist !! c) -> me_sha (n_about c) = c /\ MetaLog.wf_meta any_date (n_about c) /\ entry_matches n_hist (n_about c).
Proof.
  intros Hc. destruct (n_known c Hc) as [->|Hq].
  - unfold n_about. rewrite decide_True by done. split; [reflexivity|]. split.
    + split; [hdrs|split; [reflexivity|split; [nodup|cbn [me_body ee_entry]]]]. apply Forall_cons_2; [plain1|]. apply Forall_cons_2; [plain1|apply Forall_nil_2].
    + split; [cbn [me_sha ee_entry]; rewrite n_parents_d; cbn; lia|]. cbn [me_sha ee_entry]. change (patches_of n_hist qd) with D_bd. split.
      * apply Forall_cons_2; [|apply Forall_cons_2; [|apply Forall_nil_2]].
        -- left. split; [reflexivity|]. eexists _, _. split; [left|reflexivity].
        -- right. left. split; [reflexivity|]. split; [eexists _, _; split; [right; left|reflexivity]|]. intros (p & m & Hp & Hk). unfold D_bd in Hp. rewrite ?elem_of_cons, elem_of_nil in Hp.
           destruct Hp as [->|[->|[]]]; discriminate Hk.
      * intros p Hp. unfold D_bd in Hp. rewrite ?elem_of_cons, elem_of_nil in Hp. destruct Hp as [->|[->|[]]].
        -- exists (ri, Plain "M" f_, MetaLog.Text 1 0). split; [left|reflexivity].
        -- exists (ri, Plain "A" g_, MetaLog.Text 1 0). split; [right; left|reflexivity].
  - assert (E : n_about c = q_about c) by (unfold n_about; by rewrite decide_False by (by apply n_not_d)). rewrite E. destruct (q_about_ok c Hq) as (H1 & H2 & H3). split; [exact H1|]. split; [exact H2|].
    unfold entry_matches in *. rewrite H1 in *. rewrite (n_hparents c Hq). assert (Ep : patches_of n_hist c = patches_of q_hist c) by (destruct (q_known c Hq) as [->|[->| ->]]; reflexivity). rewrite Ep.
    destruct (n_extends c Hq) as (_ & _ & Ed & _). by rewrite Ed.
Qed.
Lemma n_usable : usable 3 any_date n_repo2 n_hist n_about.
Proof.
  split.
  - reflexivity.
  - exact n_valid.
  - lia.
  - exact n_acyclic.
  - split; [exists [qb]; lk|lk].
  - intros x Hx. apply elem_of_cons in Hx as [->|Hx]; [exists [qb]; lk|]. apply elem_of_list_singleton in Hx as ->. exists [qa]; lk.
  - intros c Hc Hm. exfalso. destruct (n_known c Hc) as [->|Hq]; [vm_compute in Hm; lia|]. destruct (q_known c Hq) as [->|[->| ->]]; vm_compute in Hm; lia.
  - exact n_about_ok.
  - intros c Hc. destruct (n_known c Hc) as [->|Hq]; [lk|]. destruct (q_known c Hq) as [->|[->| ->]]; lk.
  - intros c Hc. unfold UnifiedDiff.short_lines. rewrite Forall_forall. intros l Hl.
    assert (forallb (fun l : bytes => (N.of_nat (length l) <? 100000000)%N) (log_lines (entries_of n_hist c)) = true) as E
      by (destruct (n_known c Hc) as [->|Hq]; [lk|]; destruct (q_known c Hq) as [->|[->| ->]]; lk).
    rewrite forallb_forall in E. specialize (E l (proj1 (elem_of_list_In _ _) Hl)). by apply N.ltb_lt.
Qed.
Lemma n_step x y : parent n_parents x y -> (x = qd /\ y = qb) \/ ((x = qb \/ x = qc) /\ y = qa).
Proof.
  intros Hp. change (y ∈ hparents n_hist x) in Hp. destruct (decide (x = qd)) as [->|Hn]; [left; rewrite n_parents_d in Hp; by apply elem_of_list_singleton in Hp as ->|].
  right. assert (Hx : is_Some (q_parents !! x)).
  { destruct (q_parents !! x) eqn:E; [by eexists|]. unfold hparents, parents in Hp. cbn [n_hist hi_parents] in Hp. unfold n_parents in Hp. rewrite lookup_insert_ne, E in Hp by done. by apply elem_of_nil in Hp. }
  rewrite (n_hparents x Hx) in Hp. destruct (q_known x Hx) as [->|[->| ->]].
  - replace (hparents q_hist qa) with (@nil bytes) in Hp by lk. by apply elem_of_nil in Hp.
  - replace (hparents q_hist qb) with [qa] in Hp by lk. apply elem_of_list_singleton in Hp as ->. tauto.
  - replace (hparents q_hist qc) with [qa] in Hp by lk. apply elem_of_list_singleton in Hp as ->. tauto.
Qed.
Lemma n_from_a x : reaches n_parents qa x -> x = qa.
Proof. intros Hr. destruct (rtc_inv _ _ Hr) as [<-|(y & Hy & _)]; [done|]. apply n_step in Hy as [[E _]|[[E|E] _]]; discriminate E. Qed.
Lemma n_db : reaches n_parents qd qb.
Proof. apply rtc_once. change (qb ∈ hparents n_hist qd). rewrite n_parents_d. left. Qed.
Lemma n_da : reaches n_parents qd qa.
Proof. eapply rtc_r; [exact n_db|]. change (qa ∈ hparents n_hist qb). replace (hparents n_hist qb) with [qa] by lk. left. Qed.
Lemma n_from_d x : reaches n_parents qd x <-> x ∈ [qa; qb; qd].
Proof.
  split.
  - intros Hr. destruct (rtc_inv _ _ Hr) as [<-|(y & Hy & Hr2)]; [in_list|]. apply n_step in Hy as [[_ ->]|[[E|E] _]]; [|discriminate E..].
    destruct (rtc_inv _ _ Hr2) as [<-|(z & Hz & Hr3)]; [in_list|]. apply n_step in Hz as [[E _]|[_ ->]]; [discriminate E|]. apply n_from_a in Hr3 as ->. in_list.
  - intros Hx. rewrite ?elem_of_cons, elem_of_nil in Hx. destruct Hx as [->|[->|[->|[]]]]; [exact n_da|exact n_db|apply rtc_refl].
Qed.
Lemma n_since x : x ∈ [qb; qd] <-> since n_repo2 qa x.
Proof.
  unfold since. cbn [n_repo2 g_parents g_head]. rewrite n_from_d. split.
  - intros Hx. rewrite ?elem_of_cons, elem_of_nil in Hx. destruct Hx as [->|[->|[]]]; (split; [in_list|]); intros Hr; apply n_from_a in Hr; discriminate Hr.
  - intros [Hx Hn]. rewrite ?elem_of_cons, elem_of_nil in Hx. destruct Hx as [->|[->|[->|[]]]]; [exfalso; apply Hn, rtc_refl|in_list|in_list].
Qed.
Lemma n_name : Selection.simple_name qb.
Proof. apply id_simple. split; [discriminate|lk]. Qed.
Lemma n_shown c : shows n_repo2 [qb ++ B "^..HEAD"] c <-> c ∈ [qb; qd].
Proof.
  rewrite n_since. assert (E : patch_revs n_opts = [qb ++ B "^..HEAD"]) by lk. rewrite <- E. apply (C68_incremental n_repo2 n_opts qb qa []); [exact n_name|lk|lk|reflexivity].
Qed.
Lemma n_graph c : shows n_repo2 [] c <-> c ∈ [qa; qb; qd].
Proof.
  assert (E : patch_revs (ROpts [] false false false) = []) by lk. rewrite <- E. rewrite (C68_full_run n_repo2 (ROpts [] false false false) c eq_refl). cbn [n_repo2 g_parents g_head g_tips ro_all]. rewrite <- n_from_d.
  split; [intros (x & [->|[Hx _]] & Hr); [exact Hr|discriminate Hx]|]. intros Hr. exists qd. split; [by left|exact Hr].
Qed.
Lemma n_blames c f e : hi_tree n_hist c !! f = Some e -> Forall wf_porcelain (n_blame c f) /\ map po_text (n_blame c f) = content_lines (en_content e) /\
  forall p, p ∈ n_blame c f -> reaches (hi_parents n_hist) c (po_commit p).
Proof.
  intros He. assert (Hc : c ∈ [qa; qb; qc; qd]).
  { destruct (decide (c ∈ [qa; qb; qc; qd])) as [|Hn]; [done|]. exfalso. assert (En : hi_tree n_hist c = ∅); [|rewrite En in He; by rewrite lookup_empty in He].
    cbn [n_hist hi_tree]. unfold pick. cbn [list_find]. rewrite !decide_False by (cbn; intros <-; apply Hn; in_list). done. }
  assert (Hid : commit_id c).
  { rewrite ?elem_of_cons, elem_of_nil in Hc. destruct Hc as [->|[->|[->|[->|[]]]]]; (split; [discriminate|lk]). }
  assert (Ht : forall t, t ∈ content_lines (en_content e) -> NL ∉ t).
  { assert (Hall : forall t, t ∈ [T_a; T_b; T_c; T_d] -> forall f e, t !! f = Some e -> forallb (fun s => bool_decide (NL ∉ s)) (content_lines (en_content e)) = true).
    { intros t Ht f0 e0 He0. assert (Hx : forallb (fun x : bytes * entry => forallb (fun s => bool_decide (NL ∉ s)) (content_lines (en_content x.2))) (map_to_list t) = true).
      { rewrite ?elem_of_cons, elem_of_nil in Ht. destruct Ht as [->|[->|[->|[->|[]]]]]; lk. }
      rewrite forallb_forall in Hx. apply (Hx (f0, e0)). apply elem_of_list_In. by apply elem_of_map_to_list. }
    assert (Htc : hi_tree n_hist c ∈ [T_a; T_b; T_c; T_d]).
    { rewrite ?elem_of_cons, elem_of_nil in Hc. destruct Hc as [->|[->|[->|[->|[]]]]]; [left|right; left|right; right; left|right; right; right; left]. }
    specialize (Hall _ Htc f e He). rewrite forallb_forall in Hall. intros t Hin. apply elem_of_list_In in Hin. by apply Hall, bool_decide_eq_true in Hin. }
  unfold n_blame. rewrite He. revert Ht. generalize (content_lines (en_content e)). intros ts Ht. split; [|split].
  - apply Forall_forall. intros p Hp. apply elem_of_list_In, in_map_iff in Hp as (t & <- & Hin%elem_of_list_In).
    split; [exact Hid|]. split; [right; by eexists|]. split; [ni|]. split; [constructor|]. split; [constructor|]. by apply Ht.
  - rewrite map_map. apply map_id.
  - intros p Hp. apply elem_of_list_In, in_map_iff in Hp as (t & <- & _). apply rtc_refl.
Qed.
Lemma n_answers : answers n_repo2 n_hist n_about n_git [] [qb ++ B "^..HEAD"].
Proof.
  assert (Hl : lists_exactly [qb; qd] (shows n_repo2 [qb ++ B "^..HEAD"])) by (split; [in_list|]; intros x; by rewrite n_shown).
  split.
  - intros x. reflexivity.
  - exists [qa; qb; qd]. split; [split; [in_list|]; intros x; by rewrite n_graph|]. intros x. reflexivity.
  - intros f. exists [qb; qd]. split; [exact Hl|]. split; [|intros x; reflexivity].
    intros i j c p Hi Hj Hp. apply n_step in Hp as [[-> ->]|[_ ->]].
    + destruct i as [|[|i]]; [discriminate Hi| |discriminate Hi]. destruct j as [|[|j]]; [lia|discriminate Hj|discriminate Hj].
    + apply elem_of_list_lookup_2 in Hj. rewrite ?elem_of_cons, elem_of_nil in Hj. destruct Hj as [E|[E|[]]]; discriminate E.
  - intros f. exists [qb; qd], (n_meta [qb; qd]). split; [exact Hl|]. split; [lk|]. split; [apply (bool_decide_unpack _); vm_compute; exact I|]. intros x. reflexivity.
  - intros c f e He. exists (n_blame c f). destruct (n_blames c f e He) as (H1 & H2 & H3). split; [exact H1|]. split; [exact H2|]. split; [exact H3|]. intros x. reflexivity.
Qed.
Lemma n_same_blame x c f : is_Some (hi_parents q_hist !! c) -> q_git x [B "blame"; c; B "--porcelain"; B "--"; f] = n_git x [B "blame"; c; B "--porcelain"; B "--"; f].
Proof.
  intros Hc. change (Ret (render_porcelain (q_blame c f)) = Ret (render_porcelain (n_blame c f))). f_equal. f_equal. unfold q_blame, n_blame. by destruct (n_extends c Hc) as (_ & -> & _).
Qed.
Lemma n_left_right : checkpoint_right q_hist (fallback q_git) n_left.
Proof.
  assert (Hx : forall t, cr_trimmed t t) by exact cr_trimmed_refl.
  assert (Ha : blame_of q_hist (fallback q_git) qa f_ (Blame qa [Line x_ qa] false)).
  { eapply (bo_created q_hist (fallback q_git) qa f_ (creates f_ [Add x_])); [vm_compute; lia|left|split; [discriminate|reflexivity]|reflexivity|left; reflexivity|].
    cbn. apply att_add; [apply Hx|apply att_nil]. }
  intros c fs Hc. unfold n_left in Hc. apply lookup_insert_Some in Hc as [[<- <-]|[_ Hc]]; [|apply lookup_singleton_Some in Hc as [<- <-]].
  - split; [exists []; lk|]. intros f Hf. change (is_Some (T_a !! f)) in Hf. unfold T_a in Hf. destruct Hf as [e Hf]; apply lookup_singleton_Some in Hf as [<- _].
    exists (Blame qa [Line x_ qa] false). split; [lk|exact Ha].
  - split; [exists [qa]; lk|]. intros f Hf. change (is_Some (T_b !! f)) in Hf. unfold T_b in Hf. destruct Hf as [e Hf]; apply lookup_singleton_Some in Hf as [<- _].
    exists (Blame qb [Line x_ qa; Line y_ qb] false). split; [lk|].
    eapply (bo_changed q_hist (fallback q_git) qb qa f_ (modifies f_ [Keep x_; Add y_]) _ [] (Blame qa [Line x_ qa] false));
      [lk|left|split; [discriminate|reflexivity]|discriminate|left; reflexivity|exact Ha|reflexivity| |].
    + cbn. apply Forall2_cons_2; [exists x_; split; apply Hx|apply Forall2_nil_2].
    + cbn. apply att_keep. apply att_add; [apply Hx|apply att_nil].
Qed.
Lemma n_old c q : since n_repo2 qa c -> parent (g_parents n_repo2) c q -> reaches (g_parents n_repo2) qa q -> q ∈ hparents n_hist qb.
Proof. intros _ _ Hr. apply n_from_a in Hr as ->. replace (hparents n_hist qb) with [qa] by lk. left. Qed.
(** The hypotheses of C82 that are not those of C77 (shown for [q_repo] beside it). *)
Definition n_disk : fs := apply_ops (FS None None) (write_ops (FS None None) id id n_chunks [qb]).
Example C82_hypotheses_hold :
  usable 3 any_date n_repo2 n_hist n_about /\ answers n_repo2 n_hist n_about n_git [] [range_of n_opts] /\
  named n_repo2 qb = Some qb /\ starts_after n_repo2 n_opts qa /\
  (forall c q, since n_repo2 qa c -> parent (g_parents n_repo2) c q -> reaches (g_parents n_repo2) qa q -> is_Some (n_left !! q) /\ hi_tree n_hist q <> ∅) /\
  lists_exactly [qb; qd] (since n_repo2 qa) /\
  grown q_hist q_git n_hist n_git /\
  checkpoint_right q_hist (fallback q_git) n_left /\ saved_on ex_hash n_left qb n_disk.
Proof.
  split; [exact n_usable|]. split; [exact n_answers|]. split; [lk|]. split; [exists qb; split; [lk|]; exists []; lk|].
  split.
  { intros c q Hc Hq Hr. pose proof (n_old c q Hc Hq Hr) as Hx. replace (hparents n_hist qb) with [qa] in Hx by lk. apply elem_of_list_singleton in Hx as ->.
    split; [eexists; lk|]. intros E; apply (f_equal (lookup f_)) in E; vm_compute in E; discriminate E. }
  split; [split; [in_list|intros x; apply n_since]|]. split; [split; [exact n_extends|exact n_same_blame]|]. split; [exact n_left_right|].
  exists (unshared n_left), id, (fun _ => id), n_files, (FS None None), id, id, n_chunks, [qb].
  split; [apply map_check; vm_compute; reflexivity|]. split; [apply unshared_sound|]. split; [apply encb_ok; vm_compute; reflexivity|]. split; [apply ncb_ok; vm_compute; reflexivity|].
  split; [intros l; reflexivity|]. split; [intros c l; reflexivity|]. split; [intros l; reflexivity|]. split; [intros l; reflexivity|].
  split; [apply get_ok; vm_compute; reflexivity|].
  split; [|reflexivity].
  split; [intros x Hx; unfold n_chunks in Hx; repeat (apply elem_of_cons in Hx as [->|Hx]; [cbn [fst]; in_list|]); by apply elem_of_nil in Hx|].
  split; [vm_compute; reflexivity|]. split; [vm_compute; reflexivity|]. split; [vm_compute; reflexivity|]. split; vm_compute; reflexivity.
Qed.
