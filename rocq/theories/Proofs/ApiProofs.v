(** * Lemmas for C77: from the answers of git to the records *)
From Verif.Model Require Import Base GoStrings IncBlame LogParser ParentsGraph Process Msgp Checkpoint CheckpointFS CommitMeta FileInfo CodeInfo Net Pipeline GitBlame LogArgs Api.
From Verif.Spec Require Import Text UnifiedDiff Attribution GitLog CommitGraph History Processing Records MetaLog EndToEnd Delivery Selection Porcelain Validation GitAnswers Continuing.
From Verif.Proofs Require Import TextLemmas ParentsGraphProofs ProcessLoop ResumeTop SelectionProofs RecordProofs RecordMore EndToEndProofs EndToEndRun PipelineProofs PipelineMore ValidateProofs TrimProofs BranchMetaProofs.
From Verif.Props Require Import MetaProps ProcessProps RecordProps PipelineProps GraphProps GitBlameProps EndToEndProps SelectionProps.
From Coq Require Import Lia.

(** ** A part of a history that contains the parents of its commits *)
Section Cut.
Context (H : history) (cs : list bytes).
Definition cut : history :=
  History (list_to_map (map (fun c => (c, parents (hi_parents H) c)) cs)) (fun c => if decide (c ∈ cs) then hi_tree H c else ∅) (hi_diff H) (hi_meta H).
Context (Hnd : NoDup cs) (Hin : forall c, c ∈ cs -> is_Some (hi_parents H !! c)) (Hcl : forall c p, c ∈ cs -> parent (hi_parents H) c p -> p ∈ cs).

Lemma cut_lookup c : c ∈ cs -> hi_parents cut !! c = hi_parents H !! c.
Proof.
  intros Hc. cbn [cut hi_parents]. destruct (Hin c Hc) as [ps Hps]. rewrite Hps. apply elem_of_list_to_map.
  - change (map (fun c0 => (c0, parents (hi_parents H) c0)) cs) with ((fun c0 => (c0, parents (hi_parents H) c0)) <$> cs).
    rewrite <- list_fmap_compose. change (NoDup ((fun x : bytes => x) <$> cs)). by rewrite list_fmap_id.
  - change ((c, ps) ∈ (fun c0 => (c0, parents (hi_parents H) c0)) <$> cs). apply elem_of_list_fmap. exists c. split; [|done]. unfold parents. by rewrite Hps.
Qed.
Lemma cut_outside c : c ∉ cs -> hi_parents cut !! c = None.
Proof.
  intros Hc. cbn [cut hi_parents]. apply not_elem_of_list_to_map_1.
  change (map (fun c0 => (c0, parents (hi_parents H) c0)) cs) with ((fun c0 => (c0, parents (hi_parents H) c0)) <$> cs).
  rewrite <- list_fmap_compose. intros (x & -> & Hx)%elem_of_list_fmap. done.
Qed.
Lemma cut_some c : is_Some (hi_parents cut !! c) <-> c ∈ cs.
Proof.
  split.
  - intros Hs. destruct (decide (c ∈ cs)) as [|Hn]; [done|]. rewrite (cut_outside c Hn) in Hs. by destruct Hs.
  - intros Hc. rewrite (cut_lookup c Hc). by apply Hin.
Qed.
Lemma cut_hparents c : c ∈ cs -> hparents cut c = hparents H c.
Proof. intros Hc. unfold hparents, parents. by rewrite (cut_lookup c Hc). Qed.
Lemma cut_parent c p : parent (hi_parents cut) c p <-> c ∈ cs /\ parent (hi_parents H) c p.
Proof.
  unfold parent. destruct (decide (c ∈ cs)) as [Hc|Hc].
  - change (parents (hi_parents cut) c) with (hparents cut c). rewrite (cut_hparents c Hc). unfold hparents. tauto.
  - unfold parents at 1. rewrite (cut_outside c Hc). cbn. split; [intros Hx; by apply elem_of_nil in Hx|tauto].
Qed.
Lemma cut_tree c : c ∈ cs -> hi_tree cut c = hi_tree H c.
Proof. intros Hc. cbn [cut hi_tree]. by rewrite decide_True. Qed.
Lemma cut_reaches c x : c ∈ cs -> reaches (hi_parents H) c x -> reaches (hi_parents cut) c x.
Proof.
  intros Hc Hr. induction Hr as [c|c y x Hp _ IH]; [apply rtc_refl|]. eapply rtc_l; [apply cut_parent; by split|]. apply IH. by eapply Hcl.
Qed.
Lemma cut_reaches_back c x : reaches (hi_parents cut) c x -> reaches (hi_parents H) c x.
Proof. intros Hr. induction Hr as [c|c y x Hp _ IH]; [apply rtc_refl|]. eapply rtc_l; [|exact IH]. by apply cut_parent in Hp as [_ ?]. Qed.
Lemma cut_acyclic : acyclic (hi_parents H) -> acyclic (hi_parents cut).
Proof.
  intros Ha c Hc. apply (Ha c). unfold ancestor in *. clear Ha. revert Hc. generalize c at 2 4. intros x Hc.
  induction Hc as [c x Hp|c y x Hp _ IH]; [apply tc_once|eapply tc_l; [|exact IH]]; by apply cut_parent in Hp as [_ ?].
Qed.
Lemma cut_valid k : valid_history k H -> valid_history k cut.
Proof.
  intros [_ HV]. split.
  - intros x y Hp. apply cut_parent in Hp as [Hx Hp]. apply cut_some. by eapply Hcl.
  - intros c Hc. apply cut_some in Hc. destruct (HV c (Hin c Hc)) as (H1 & H2 & H3 & H4 & H5 & H6). unfold wf_commit. rewrite (cut_hparents c Hc).
    split; [done|]. split; [done|]. split; [done|]. split; [done|]. rewrite (cut_tree c Hc). split; [done|].
    intros p Hp. rewrite (cut_tree p (Hcl c p Hc Hp)). by apply H6.
Qed.
Lemma cut_slow slow : slow_blame_right H slow -> slow_blame_right cut slow.
Proof.
  intros HS c f e He. destruct (decide (c ∈ cs)) as [Hc|Hc].
  - rewrite (cut_tree c Hc) in He. destruct (HS c f e He) as (b & H1 & H2 & H3 & H4). exists b. do 3 (split; [done|]). intros l Hl. apply cut_reaches; [done|by apply H4].
  - cbn [cut hi_tree] in He. rewrite decide_False in He by done. by rewrite lookup_empty in He.
Qed.
Lemma cut_merge c : c ∈ cs -> plain_merge H c -> plain_merge cut c.
Proof.
  intros Hc Hp. unfold plain_merge. rewrite (cut_hparents c Hc), (cut_tree c Hc). intros Hl. destruct (Hp Hl) as [H1 H2]. split; [done|].
  intros p f Hpp. rewrite (cut_tree p (Hcl c p Hc Hpp)). by apply H2.
Qed.
Lemma cut_patches c : c ∈ cs -> patches_of cut c = patches_of H c.
Proof. intros Hc. unfold patches_of. rewrite (cut_hparents c Hc). done. Qed.
Lemma cut_log cs' : (forall c, c ∈ cs' -> c ∈ cs) -> git_log cut cs' = git_log H cs'.
Proof.
  intros Hs. unfold git_log. f_equal. apply map_ext_in. intros c Hc%elem_of_list_In. unfold entries_of, entry_of. rewrite (cut_hparents c (Hs c Hc)). done.
Qed.
Lemma cut_entry {T} (m : meta_entry T) : me_sha m ∈ cs -> entry_matches H m -> entry_matches cut m.
Proof.
  intros Hm. unfold entry_matches. rewrite (cut_hparents _ Hm), (cut_patches _ Hm). done.
Qed.
Lemma cut_blame slow c f b : blame_of cut slow c f b -> c ∈ cs -> blame_of H slow c f b.
Proof.
  intros Hb.
  induction Hb as [c p f b H1 H2 H3 H4 IH|c f q hs ls H1 H2 H3 H4 H5 H6|c p f q hs tail b ls H1 H2 H3 H4 H5 H6 IH H7 H8 H9|c f q H1 H2 H3 H4
    |c p f q b H1 H2 H3 H4 H5 H6 H7 IH H8|c p f q hs b b' H1 H2 H3 H4 H5 H6 IH H7 H8|c p f b H1 H2 H3 H4 H5 IH
    |c f e txt mps ls H1 H2 H3 H4 H5 H6 H7 IH H8 H9|c f p q H1 H2 H3 H4 H5|c f p q b H1 H2 H3 H4 H5 H6 IH H7]; intros Hc;
    rewrite ?(cut_hparents c Hc) in *; rewrite ?(cut_tree c Hc) in *; rewrite ?(cut_patches c Hc) in *;
    assert (Hpar : forall p, p ∈ hparents H c -> p ∈ cs) by (intros x Hx; by apply (Hcl c)).
  - eapply bo_same; [done..|]. apply IH, Hpar. rewrite H1. left.
  - eapply bo_created; done.
  - eapply bo_changed; [done..| | | |]; [|done..]. apply IH, Hpar. rewrite H1. left.
  - eapply bo_binary; done.
  - eapply bo_moved_binary; [done..| |done]. apply IH, Hpar. rewrite H1. left.
  - eapply bo_rebuilt; [done..| | |]; [|done..]. apply IH, Hpar. rewrite H1. left.
  - eapply bo_merge_same; [done..| |]; [|by apply IH, Hpar]. by rewrite <- (cut_tree p (Hpar p H2)).
  - eapply bo_merge; [done..| |done|done]. intros i p m Hi Hm Hn. apply (IH i p m Hi Hm Hn). apply Hpar. by eapply elem_of_list_lookup_2.
  - eapply bo_merge_binary; done.
  - eapply bo_merge_opaque; [done..| |done]. by apply IH, Hpar.
Qed.
Lemma cut_blame_back slow c f b : blame_of H slow c f b -> c ∈ cs -> blame_of cut slow c f b.
Proof.
  intros Hb.
  induction Hb as [c p f b H1 H2 H3 H4 IH|c f q hs ls H1 H2 H3 H4 H5 H6|c p f q hs tail b ls H1 H2 H3 H4 H5 H6 IH H7 H8 H9|c f q H1 H2 H3 H4
    |c p f q b H1 H2 H3 H4 H5 H6 H7 IH H8|c p f q hs b b' H1 H2 H3 H4 H5 H6 IH H7 H8|c p f b H1 H2 H3 H4 H5 IH
    |c f e txt mps ls H1 H2 H3 H4 H5 H6 H7 IH H8 H9|c f p q H1 H2 H3 H4 H5|c f p q b H1 H2 H3 H4 H5 H6 IH H7]; intros Hc;
    rewrite <- ?(cut_hparents c Hc) in *; rewrite <- ?(cut_tree c Hc) in *; rewrite <- ?(cut_patches c Hc) in *;
    assert (Hpar : forall p, p ∈ hparents cut c -> p ∈ cs) by (intros x Hx; rewrite (cut_hparents c Hc) in Hx; by apply (Hcl c)).
  - eapply bo_same; [done..|]. apply IH, Hpar. rewrite H1. left.
  - eapply bo_created; done.
  - eapply bo_changed; [done..| | | |]; [|done..]. apply IH, Hpar. rewrite H1. left.
  - eapply bo_binary; done.
  - eapply bo_moved_binary; [done..| |done]. apply IH, Hpar. rewrite H1. left.
  - eapply bo_rebuilt; [done..| | |]; [|done..]. apply IH, Hpar. rewrite H1. left.
  - eapply bo_merge_same; [done..| |]; [|by apply IH, Hpar]. by rewrite (cut_tree p (Hpar p H2)).
  - eapply bo_merge; [done..| |done|done]. intros i p m Hi Hm Hn. apply (IH i p m Hi Hm Hn). apply Hpar. by eapply elem_of_list_lookup_2.
  - eapply bo_merge_binary; done.
  - eapply bo_merge_opaque; [done..| |done]. by apply IH, Hpar.
Qed.
Lemma cut_good slow c fs : c ∈ cs -> good_files cut slow c fs <-> good_files H slow c fs.
Proof.
  intros Hc. unfold good_files. rewrite (cut_tree c Hc). split; intros Hg f Hf; destruct (Hg f Hf) as (b & E & Hb); exists b; (split; [exact E|]); [by apply cut_blame|by apply cut_blame_back].
Qed.
Lemma cut_records {T L} slow (line_ok line_ok' : line -> bline T -> Prop) c (rs : list (bresult T L)) : c ∈ cs -> (forall l bl, line_ok l bl -> line_ok' l bl) ->
  commit_records_right cut slow line_ok c rs -> commit_records_right H slow line_ok' c rs.
Proof.
  intros Hc Hes.
  assert (Hlines : forall f (r : bresult T L), lines_right cut slow line_ok c f r -> lines_right H slow line_ok' c f r).
  { intros f r (b & Hb & HF). exists b. split; [by apply cut_blame|]. eapply Forall2_impl; [exact HF|]. intros l bl. apply Hes. }
  assert (Hpar : forall p, p ∈ hparents H c -> p ∈ cs) by (intros x Hx; by apply (Hcl c)).
  unfold commit_records_right. rewrite (cut_hparents c Hc). destruct (decide _).
  - intros (H1 & H2 & H3). split; [done|]. split.
    + intros f Hf Hd. apply H2; [by rewrite (cut_tree c Hc)|]. rewrite (cut_hparents c Hc). intros p Hp. rewrite (cut_tree c Hc), (cut_tree p (Hpar p Hp)). by apply Hd.
    + intros r Hr. destruct (H3 r Hr) as (A1 & A2 & A3 & A4). rewrite (cut_hparents c Hc) in A2. rewrite (cut_tree c Hc) in *. split; [done|]. split; [|split; [|done]].
      * intros p Hp. rewrite <- (cut_tree p); [by apply A2|]. apply Hpar. by eapply elem_of_list_lookup_2.
      * intros Hs Hn. by apply Hlines, A3.
  - intros (H1 & H2 & H3). rewrite (cut_patches c Hc) in *. split; [done|]. split; [done|].
    intros r Hr. destruct (H3 r Hr) as (A1 & A2 & A3 & A4 & A5). do 3 (split; [done|]). split; [|done]. intros Hn. by apply Hlines, A4.
Qed.
End Cut.

(** ** Small facts *)
Lemma order_first H known pre suf : NoDup (pre ++ suf) -> (forall c p, c ∈ pre ++ suf -> parent (hi_parents H) c p -> p ∈ pre ++ suf \/ (p ∈ known /\ p ∉ suf)) ->
  children_last (hi_parents H) (pre ++ suf) -> (forall c, c ∈ pre -> c ∈ known) -> parents_first H known suf.
Proof.
  revert known pre. induction suf as [|c r IH]; intros known pre Hnd Hcl Hol Hk; [exact I|]. cbn [parents_first].
  assert (Hci : (pre ++ c :: r) !! length pre = Some c) by (rewrite lookup_app_r, Nat.sub_diag by lia; done).
  assert (Hcin : c ∈ pre ++ c :: r) by (apply elem_of_app; right; left).
  split; [|split].
  - apply NoDup_app in Hnd as (_ & _ & Hnd). by apply NoDup_cons in Hnd as [? _].
  - intros p Hp. destruct (Hcl c p Hcin Hp) as [Hpin|[Hpk Hpn]]; [|split; [exact Hpk|]; intros Hx; apply Hpn; by right]. apply elem_of_list_lookup in Hpin as [j Hj].
    pose proof (Hol _ _ _ _ Hci Hj Hp) as Hlt. rewrite lookup_app_l in Hj by done. apply elem_of_list_lookup_2 in Hj as Hpre. split; [by apply Hk|].
    intros Hpr. apply NoDup_app in Hnd as (_ & Hnd & _). apply (Hnd p Hpre). by right.
  - replace (pre ++ c :: r) with ((pre ++ [c]) ++ r) in * by (by rewrite <- app_assoc). apply (IH (c :: known) (pre ++ [c])); [done| |done|].
    + intros d p Hd Hp. destruct (Hcl d p Hd Hp) as [?|[H1 H2]]; [by left|]. right. split; [by right|]. intros Hx. apply H2. by right.
    + intros x [Hx|Hx]%elem_of_app; [right; by apply Hk|]. apply elem_of_list_singleton in Hx as ->. left.
Qed.
Lemma log_lines_in es l : l ∈ log_lines es -> l = [] \/ exists e, e ∈ es /\ l ∈ entry_lines e.
Proof.
  induction es as [|e es IH]; [intros Hl; by apply elem_of_nil in Hl|]. destruct es as [|e' es].
  - cbn [log_lines]. intros Hl. right. exists e. split; [left|done].
  - change (log_lines (e :: e' :: es)) with (entry_lines e ++ [[]] ++ log_lines (e' :: es)). intros [Hl|Hl]%elem_of_app; [right; exists e; split; [left|done]|].
    cbn [app] in Hl. apply elem_of_cons in Hl as [->|Hl]; [by left|]. destruct (IH Hl) as [->|(x & Hx & Hlx)]; [by left|]. right. exists x. split; [by right|done].
Qed.
Lemma log_lines_of es e l : e ∈ es -> l ∈ entry_lines e -> l ∈ log_lines es.
Proof.
  intros He Hl. induction es as [|x es IH]; [by apply elem_of_nil in He|]. destruct es as [|x' es].
  - cbn [log_lines]. by apply elem_of_list_singleton in He as ->.
  - change (log_lines (x :: x' :: es)) with (entry_lines x ++ [[]] ++ log_lines (x' :: es)). apply elem_of_app. apply elem_of_cons in He as [->|He]; [by left|]. right. right. by apply IH.
Qed.
Lemma log_short H cs : (forall c, c ∈ cs -> UnifiedDiff.short_lines (log_lines (entries_of H c))) -> UnifiedDiff.short_lines (log_lines (git_log H cs)).
Proof.
  intros Hs. apply Forall_forall. intros l Hl. apply log_lines_in in Hl as [->|(e & He & Hl)]; [cbn; lia|].
  unfold git_log in He. apply elem_of_list_In, in_concat in He as (es & Hes & He%elem_of_list_In). apply in_map_iff in Hes as (c & <- & Hc%elem_of_list_In).
  specialize (Hs c Hc). unfold UnifiedDiff.short_lines in Hs. rewrite Forall_forall in Hs. apply Hs. by eapply log_lines_of.
Qed.
Lemma revs_same o : metadata_revs o = patch_revs o.
Proof.
  unfold metadata_revs, patch_revs, log_revs, meta_args. cbn [process_opts po_from po_all po_refs po_nonincl]. destruct (ro_from o) as [|x s]; [done|]. cbn [beq]. rewrite decide_True by done. by destruct (ro_nonincl o).
Qed.
Lemma lists_perm l l' P : lists_exactly l P -> lists_exactly l' P -> l ≡ₚ l'.
Proof. intros [H1 H2] [H3 H4]. apply NoDup_Permutation; [done..|]. intros x. by rewrite H2, H4. Qed.
Lemma trim_id s : commit_id s -> trim_space (s ++ [NL]) = s.
Proof. intros H. by apply trim_bare_nl, bare_id. Qed.

Lemma delivers_of_run {T L} (zt : T) (cl : classifiers L) count orders merge_orders skip disk write_err git o (s : setup T) : su_prep_err s = None -> su_log_err s = None -> forall out w xs,
  (log_run (su_text s)).2 = Ret tt -> run_top skip (api_env merge_orders git (su_graph s)) (process_opts o) disk (log_run (su_text s)).1 = (out, Ret tt, w) ->
  records_for zt cl count (su_meta s) orders ∅ 0 out xs -> delivers (api_act zt cl count orders merge_orders skip disk write_err git o s) write_err (concat xs) w.
Proof.
  intros Ep El out w xs H5 H6 H7.
  unfold api_act. rewrite Ep, El. destruct (C53_every_schedule zt cl count (su_meta s) orders ∅ skip _ (process_opts o) disk (su_text s) write_err out w xs H5 H6 H7) as [D1 D2].
  split; [exact D1|]. split; [|exact D2].
  destruct (call_reaches_end zt cl count (su_meta s) orders ∅ skip (api_env merge_orders git (su_graph s)) (process_opts o) disk (su_text s) None None write_err out (Ret tt) w xs eq_refl eq_refl H6 H7) as (c & Hc & He).
  exists c. split; [exact Hc|]. by eapply call_end_final.
Qed.

(** ** The call *)
Section Call.
Context {T : Type} (zt : T) (parse_date : bytes -> option T) (graph_order : graph -> list (bytes * list bytes)) (merge_orders : bytes -> Process.orders).
Context (git : bound -> list bytes -> outcome bytes) (tmp : nat -> outcome bytes) (repo_dir : bytes) (o : ropts).
Context (k : nat) (R : gitrepo) (H : history) (about : bytes -> meta_entry T).
Context (HU : usable k parse_date R H about) (HA : answers R H about git (graph_revs o) (patch_revs o)).
Context (f0 f1 : bytes) (Ht0 : tmp 0 = Ret f0) (Ht1 : tmp 1 = Ret f1).
Context (Hgo : forall g, graph_order g ≡ₚ map_to_list g) (Hmo : forall c, any_orders (merge_orders c)).
(** What the patches show is in the graph. *)
Context (Hsub : forall c, shows R (patch_revs o) c -> selected R (ro_all o) c).
Notation setup_is := (code_setup zt parse_date graph_order git tmp repo_dir o).

Lemma prepare_ok : prepare git repo_dir = Ret tt.
Proof.
  destruct HU as [Hsame HV _ _ [Hh Hlen] _ _ _ _ _]. rewrite <- Hsame in Hh. destruct (proj2 HV _ Hh) as [Hid _].
  unfold prepare, head_id. rewrite (an_head _ _ _ _ _ _ HA). cbv zeta. rewrite (trim_id _ Hid).
  rewrite (bool_decide_false (length (g_head R) <> 40)) by (rewrite Hlen; tauto). rewrite (bool_decide_false (g_head R = [])); [done|]. by destruct Hid.
Qed.
Lemma selected_in c : selected R (ro_all o) c -> is_Some (hi_parents H !! c).
Proof.
  destruct HU as [Hsame HV _ _ [Hh _] Htips _ _ _ _]. intros (x & Hx & Hr).
  assert (His : is_Some (hi_parents H !! x)) by (rewrite Hsame; destruct Hx as [->|[_ Hx]]; [done|by apply Htips]). clear Hx.
  rewrite <- Hsame in Hr. induction Hr as [x|x y z Hp _ IH]; [done|]. apply IH. by eapply (proj1 HV).
Qed.
Lemma selected_closed c p : selected R (ro_all o) c -> parent (hi_parents H) c p -> selected R (ro_all o) p.
Proof. intros (x & Hx & Hr) Hp. exists x. split; [done|]. eapply rtc_r; [exact Hr|]. by rewrite <- (us_same _ _ _ _ _ HU). Qed.
Lemma graph_shows c : shows R (graph_revs o) c <-> selected R (ro_all o) c.
Proof.
  rewrite <- (C68_full_run R (ROpts [] (ro_nonincl o) (ro_nostrict o) (ro_all o)) c eq_refl). unfold patch_revs, log_revs, graph_revs. cbn. rewrite decide_False by tauto. done.
Qed.

Lemma call_setup : exists s csg cs csm ls, setup_is = Ret s /\ su_prep_err s = None /\ su_log_err s = None /\
  lists_exactly csg (selected R (ro_all o)) /\ lists_exactly cs (shows R (patch_revs o)) /\ children_last (hi_parents H) cs /\
  lists_exactly csm (shows R (patch_revs o)) /\ meta_log (map about csm) ls /\ Forall (fun l => (N.of_nat (length l) < 65536)%N) ls /\
  su_text s = render_log (git_log H cs) /\ su_meta s = (run_map zt parse_date (unlines ls)).1 /\
  su_graph s = (hi_parents (cut H csg), children_from_parents (graph_order (hi_parents (cut H csg)))).
Proof.
  pose proof HU as [Hsame HV Hk Ha Hhead Htips Hmer Habout Hgl Hll]. pose proof (revs_same o) as Em.
  destruct (an_graph _ _ _ _ _ _ HA) as (csg & Hcsg & Eag).
  assert (Hcsg' : lists_exactly csg (selected R (ro_all o))) by (destruct Hcsg as [A1 A2]; split; [exact A1|]; intros x; by rewrite A2, graph_shows). clear Hcsg. rename Hcsg' into Hcsg.
  destruct (an_patches _ _ _ _ _ _ HA f1) as (cs & Hcs & Hord & Eap).
  destruct (an_metadata _ _ _ _ _ _ HA f0) as (csm & ls & Hcsm & Hml & Hms & Eam).
  set (h := map (fun c => (c, parents (hi_parents H) c)) csg).
  destruct (C12_parents_recovered h) as (m & Em1 & Em2).
  { split.
    - apply Forall_forall. intros e He. apply elem_of_list_In, in_map_iff in He as (c & <- & Hc%elem_of_list_In). cbn [fst snd].
      destruct (proj2 HV c) as (H1 & H2 & _); [apply selected_in; by apply Hcsg|]. by split.
    - subst h. change (NoDup (((fun c => (c, parents (hi_parents H) c)) <$> csg).*1)). rewrite <- list_fmap_compose.
      change (NoDup ((fun x : bytes => x) <$> csg)). rewrite list_fmap_id. apply Hcsg. }
  { apply Forall_forall. intros l Hl. apply elem_of_list_In, in_map_iff in Hl as (e & <- & He). apply in_map_iff in He as (c & <- & Hc%elem_of_list_In).
    apply Hgl, selected_in. by apply Hcsg. }
  assert (Em3 : m = hi_parents (cut H csg)).
  { apply map_eq. intros c. destruct (decide (c ∈ csg)) as [Hc|Hc].
    - rewrite (cut_lookup H csg (proj1 Hcsg) (fun x Hx => selected_in x (proj1 (proj2 Hcsg x) Hx)) c Hc).
      destruct (selected_in c (proj1 (proj2 Hcsg c) Hc)) as [ps Hps]. rewrite Hps. apply Em2. subst h.
      change ((c, ps) ∈ (fun c => (c, parents (hi_parents H) c)) <$> csg). apply elem_of_list_fmap. exists c. split; [unfold parents; by rewrite Hps|done].
    - rewrite (cut_outside H csg c Hc). destruct (m !! c) as [ps|] eqn:E; [|done]. exfalso. apply Em2 in E. subst h.
      change ((c, ps) ∈ (fun c => (c, parents (hi_parents H) c)) <$> csg) in E. apply elem_of_list_fmap in E as (c' & [= -> _] & Hc'). done. }
  assert (Hmeta : (run_map zt parse_date (unlines ls)).2 = Ret tt).
  { assert (Hwf : Forall (MetaLog.wf_meta parse_date) (map about csm)).
    { apply Forall_forall. intros x Hx. apply elem_of_list_In, in_map_iff in Hx as (c & <- & Hc%elem_of_list_In). apply Habout, selected_in, Hsub. by apply Hcsm. }
    unfold run_map. rewrite (C45_log_recovered_partial zt parse_date (map about csm) ls Hwf Hml Hms). done. }
  exists (Setup (hi_parents (cut H csg), children_from_parents (graph_order (hi_parents (cut H csg)))) (run_map zt parse_date (unlines ls)).1 (render_log (git_log H cs)) None None).
  exists csg, cs, csm, ls. split; [|done].
  unfold code_setup. rewrite prepare_ok. cbn [obind]. unfold read_graph, exec_piped, graph_log_args. rewrite Eag. cbn [obind].
  unfold graph_read. fold h. rewrite Em1. cbn [obind]. unfold commit_info, exec_piped, metadata_log_args. rewrite Ht0. cbn [obind]. rewrite Em, Eam. cbn [obind]. rewrite Hmeta. cbn [obind].
  unfold patch_log, exec_piped, patch_log_args. rewrite Ht1. cbn [obind]. rewrite Eap. by rewrite Em3.
Qed.

(** The run starts from [r0], which has what the listed commits need. *)
Context (r0 : repo) (Hr0 : checkpoint_right H (fallback git) r0).
Context (Hpres : forall c q, shows R (patch_revs o) c -> parent (hi_parents H) c q -> ~ shows R (patch_revs o) q -> is_Some (r0 !! q)).
Definition before (cs : list bytes) : list bytes := filter (fun q => q ∉ cs) (concat (map (hparents H) cs)).
Lemma before_in cs q : q ∈ before cs <-> q ∉ cs /\ exists c, c ∈ cs /\ parent (hi_parents H) c q.
Proof.
  unfold before. rewrite elem_of_list_filter. split; intros [Hq Hx]; (split; [exact Hq|]).
  - apply elem_of_list_In, in_concat in Hx as (l & Hl & Hq'). apply in_map_iff in Hl as (c & <- & Hc). apply elem_of_list_In in Hc, Hq'. by exists c.
  - destruct Hx as (c & Hc & Hp). apply elem_of_list_In, in_concat. exists (hparents H c). split; [apply in_map, elem_of_list_In, Hc|by apply elem_of_list_In].
Qed.
Lemma call_ready csg cs : lists_exactly csg (selected R (ro_all o)) -> lists_exactly cs (shows R (patch_revs o)) -> children_last (hi_parents H) cs ->
  run_ready (cut H csg) (fallback git) k (api_env merge_orders git (hi_parents (cut H csg), children_from_parents (graph_order (hi_parents (cut H csg))))) (before cs) r0 cs.
Proof.
  intros Hcsg Hcs Hord. pose proof HU as [Hsame HV Hk Ha Hhead Htips Hmer Habout Hgl Hll].
  assert (Hin : forall c, c ∈ csg -> is_Some (hi_parents H !! c)) by (intros c Hc; apply selected_in; by apply Hcsg).
  assert (Hcl : forall c p, c ∈ csg -> parent (hi_parents H) c p -> p ∈ csg).
  { intros c p Hc Hp. apply Hcsg. apply (selected_closed c p); [by apply Hcsg|done]. }
  assert (Hsame2 : forall c, c ∈ cs -> c ∈ csg) by (intros c Hc; apply Hcsg, Hsub; by apply Hcs).
  constructor.
  - exact (cut_valid H csg (proj1 Hcsg) Hin Hcl k HV).
  - exact Hk.
  - apply (cut_slow H csg (proj1 Hcsg) Hin Hcl). apply C55_fallback_blame. intros c f e He. destruct (an_blame _ _ _ _ _ _ HA c f e He) as (ls & H1 & H2 & H3 & H4).
    exists ls. split; [apply H4|]. auto.
  - exact (cut_acyclic H csg (proj1 Hcsg) Hin Ha).
  - split; [done|]. split; [eexists; split; [|reflexivity]; cbn [fst]; apply Hgo|]. split; [done|]. exact Hmo.
  - apply (order_first (cut H csg) (before cs) []); [apply Hcs| | |intros c Hc; by apply elem_of_nil in Hc].
    + intros c p Hc Hp. apply (cut_parent H csg (proj1 Hcsg) Hin) in Hp as [H1 H2]. cbn [app] in *. destruct (decide (p ∈ cs)) as [Hx|Hx]; [by left|]. right. split; [|exact Hx].
      apply before_in. split; [exact Hx|]. by exists c.
    + intros i j c p Hi Hj Hp. apply (cut_parent H csg (proj1 Hcsg) Hin) in Hp as [_ Hp]. by eapply Hord.
  - intros c Hc. apply Hsame2 in Hc. split; [by apply (cut_some H csg (proj1 Hcsg) Hin)|]. apply (cut_merge H csg (proj1 Hcsg) Hin Hcl c Hc). apply Hmer. by apply Hin.
  - intros q Hq. apply before_in in Hq as (Hq & c & Hc & Hp). destruct (Hpres c q) as [fs Hfs]; [by apply Hcs|exact Hp|intros Hx; by apply Hq, Hcs|].
    exists fs. split; [exact Hfs|]. apply (cut_good H csg (proj1 Hcsg) Hin Hcl); [eapply Hcl; [by apply Hsame2|exact Hp]|]. by apply Hr0.
Qed.

(** What the run leaves. *)
Lemma call_leaves csg cs s : lists_exactly csg (selected R (ro_all o)) -> lists_exactly cs (shows R (patch_revs o)) -> children_last (hi_parents H) cs ->
  process_log (api_env merge_orders git (hi_parents (cut H csg), children_from_parents (graph_order (hi_parents (cut H csg))))) (pst_init r0) (map commit_of (git_log (cut H csg) cs)) = (s, Ret tt) ->
  checkpoint_right H (fallback git) (s_repo s) /\
  (forall v, last cs = Some v -> is_Some (s_repo s !! v)) /\
  (forall v q, last cs = Some v -> length (hparents H v) <= 1000 -> q ∈ hparents H v -> is_Some (s_repo s !! q)) /\
  (forall l, length l <= 1000 -> (forall c q, c ∈ cs -> q ∈ hparents H c -> q ∈ l) -> forall x, x ∈ cs \/ is_Some (r0 !! x) -> is_Some (s_repo s !! x)).
Proof.
  intros Hcsg Hcs Hord E. pose proof (call_ready csg cs Hcsg Hcs Hord) as [HV Hk HS HAc He Ho Hc Hb].
  assert (Hin : forall c, c ∈ csg -> is_Some (hi_parents H !! c)) by (intros c Hx; apply selected_in; by apply Hcsg).
  assert (Hcl : forall c p, c ∈ csg -> parent (hi_parents H) c p -> p ∈ csg).
  { intros c p Hx Hp. apply Hcsg. apply (selected_closed c p); [by apply Hcsg|done]. }
  assert (Hsame2 : forall c, c ∈ cs -> c ∈ csg) by (intros c Hx; apply Hcsg, Hsub; by apply Hcs).
  assert (Hbc : forall q, q ∈ before cs -> q ∈ csg).
  { intros q Hq. apply before_in in Hq as (_ & c & Hx & Hp). eapply Hcl; [by apply Hsame2|exact Hp]. }
  destruct (run_ok k (cut H csg) (fallback git) HV Hk HS HAc _ He (before cs) r0 cs Ho Hc Hb) as (s' & fin & E' & Hinv). rewrite E in E'. injection E' as <-.
  assert (Hfin : forall x, x ∈ drop max_commits_in_checkpoint (rev fin) -> finished (cut H csg) cs x).
  { intros x Hx. apply (li_fin _ _ _ _ _ _ _ _ Hinv). assert (x ∈ rev fin) as Hin' by (rewrite <- (take_drop max_commits_in_checkpoint (rev fin)); apply elem_of_app; by right).
    by rewrite elem_of_list_In, <- in_rev, <- elem_of_list_In in Hin'. }
  assert (Hchild : forall x, finished (cut H csg) cs x -> exists c, c ∈ cs /\ x ∈ hparents H c).
  { intros x [[d Hd] Hall]. pose proof (Hall d Hd) as Hdc. exists d. split; [exact Hdc|]. by rewrite (cut_hparents H csg (proj1 Hcsg) Hin d (Hsame2 d Hdc)) in Hd. }
  split; [|split; [|split]].
  - intros c fs Hfs. destruct (decide (c ∈ before cs \/ c ∈ cs)) as [Hx|Hx].
    + assert (Hcc : c ∈ csg) by (destruct Hx; [by apply Hbc|by apply Hsame2]). split; [by apply Hin|].
      pose proof (li_repo _ _ _ _ _ _ _ _ Hinv c Hx) as Hg. case_decide as Hd; [by rewrite Hfs in Hg|]. destruct Hg as (fs' & Hfs' & Hg). rewrite Hfs in Hfs'. injection Hfs' as <-.
      by apply (cut_good H csg (proj1 Hcsg) Hin Hcl) in Hg.
    + pose proof (li_other _ _ _ _ _ _ _ _ Hinv c) as Hg. specialize (Hg ltac:(tauto) ltac:(tauto)). case_decide as Hd; [by rewrite Hfs in Hg|]. apply Hr0. by rewrite <- Hg.
  - intros v Hv. apply last_Some in Hv as (l & ->). assert (Hvl : v ∈ l ++ [v]) by (apply elem_of_app; right; left).
    pose proof (li_repo _ _ _ _ _ _ _ _ Hinv v ltac:(by right)) as Hg. case_decide as Hd; [|destruct Hg as (fs & Hfs & _); by exists fs]. exfalso.
    apply Hfin, Hchild in Hd as (c & Hx & Hp). apply elem_of_list_lookup in Hx as [i Hi].
    assert (Hj : (l ++ [v]) !! length l = Some v) by (rewrite lookup_app_r by lia; by rewrite Nat.sub_diag).
    pose proof (Hord i (length l) c v Hi Hj Hp). apply lookup_lt_Some in Hi. rewrite app_length in Hi. cbn in Hi. lia.
  - intros v q Hv Hlen Hq. apply last_Some in Hv as (l & ->). assert (Hvc : v ∈ csg) by (apply Hsame2, elem_of_app; right; left).
    assert (Hg : good (cut H csg) (fallback git) (s_repo s) q).
    { eapply last_kept; [exact Hinv|apply Hcs| | |]; [rewrite (cut_hparents H csg (proj1 Hcsg) Hin v Hvc)..|]; [exact Hlen|exact Hq|].
      destruct (decide (q ∈ l ++ [v])) as [|Hn]; [by right|]. left. apply before_in. split; [exact Hn|]. exists v. split; [apply elem_of_app; right; left|exact Hq]. }
    destruct Hg as (fs & Hfs & _). by exists fs.
  - intros l Hlen Hl x Hx. assert (Hnd : x ∉ drop max_commits_in_checkpoint (rev fin)).
    { rewrite drop_ge; [apply not_elem_of_nil|]. rewrite rev_length. etransitivity; [|exact Hlen]. apply NoDup_incl_length.
      - apply NoDup_ListNoDup, (li_nodup _ _ _ _ _ _ _ _ Hinv).
      - intros y Hy%elem_of_list_In. apply (li_fin _ _ _ _ _ _ _ _ Hinv) in Hy. apply Hchild in Hy as (c & Hx' & Hp). apply elem_of_list_In. by eapply Hl. }
    destruct (decide (x ∈ before cs \/ x ∈ cs)) as [Hb'|Hb'].
    + pose proof (li_repo _ _ _ _ _ _ _ _ Hinv x Hb') as Hg. rewrite decide_False in Hg by exact Hnd. destruct Hg as (fs & Hfs & _). by exists fs.
    + pose proof (li_other _ _ _ _ _ _ _ _ Hinv x ltac:(tauto) ltac:(tauto)) as Hg. rewrite decide_False in Hg by exact Hnd. rewrite Hg. tauto.
Qed.

(** The whole call. *)
Context {L : Type} (cl : classifiers L) (count : bytes -> bytes -> bytes -> list (Z * line_type) * totals) (orders : nat -> list (bytes * blame) -> list (bytes * blame)).
Context (skip : bytes -> pres unit) (disk : fs) (write_err : option bytes).
Context (Hord : forall n, any_perm (orders n)) (Hdet : detector_works cl).
Context (Hinit : init_checkpoints skip (process_opts o) disk = Ret r0).
Lemma call_runs : exists s, setup_is = Ret s /\ su_prep_err s = None /\ su_log_err s = None /\
  exists cs xs w out, lists_exactly cs (shows R (patch_revs o)) /\ children_last (g_parents R) cs /\
    Forall2 (commit_records_right H (fallback git) (if decide (r0 = ∅) then line_right (map about cs) else line_since zt (map about cs))) cs xs /\
    leaves_checkpoint H (fallback git) r0 cs w /\ (log_run (su_text s)).2 = Ret tt /\
    run_top skip (api_env merge_orders git (su_graph s)) (process_opts o) disk (log_run (su_text s)).1 = (out, Ret tt, w) /\ records_for zt cl count (su_meta s) orders ∅ 0 out xs /\
    map r_commit out = cs /\ (exists csm, csm ≡ₚ cs /\ forall i c, csm !! i = Some c -> su_meta s !! c = Some (meta_commit (S i) (about c))).
Proof.
  destruct call_setup as (s & csg & cs & csm & ls & Es & Ep & El & Hcsg & Hcs & Hlast & Hcsm & Hml & Hms & Etext & Emeta & Egraph).
  exists s. split; [exact Es|]. split; [exact Ep|]. split; [exact El|].
  pose proof HU as [Hsame HV Hk Ha Hhead Htips Hmer Habout Hgl Hll].
  pose proof (call_ready csg cs Hcsg Hcs Hlast) as HR.
  assert (Hin : forall c, c ∈ csg -> is_Some (hi_parents H !! c)) by (intros c Hc; apply selected_in; by apply Hcsg).
  assert (Hcl : forall c p, c ∈ csg -> parent (hi_parents H) c p -> p ∈ csg).
  { intros c p Hc Hp. apply Hcsg. apply (selected_closed c p); [by apply Hcsg|done]. }
  assert (Hsub2 : forall c, c ∈ cs -> c ∈ csg) by (intros c Hc; apply Hcsg, Hsub; by apply Hcs).
  assert (Hsubm : forall c, c ∈ csm -> c ∈ csg) by (intros c Hc; apply Hcsg, Hsub; by apply Hcsm).
  assert (Elog : git_log (cut H csg) cs = git_log H cs) by (apply (cut_log H csg (proj1 Hcsg) Hin); exact Hsub2).
  assert (Hsha : map me_sha (map about csm) = csm).
  { rewrite map_map. rewrite <- (map_id csm) at 2. apply map_ext_in. intros c Hc%elem_of_list_In. by apply Habout, Hin, Hsubm. }
  assert (HG : UnifiedDiff.short_lines (log_lines (git_log (cut H csg) cs))).
  { rewrite Elog. apply log_short. intros c Hc. by apply Hll, Hin, Hsub2. }
  assert (HW : Forall (MetaLog.wf_meta parse_date) (map about csm)).
  { apply Forall_forall. intros x Hx. apply elem_of_list_In, in_map_iff in Hx as (c & <- & Hc%elem_of_list_In). by apply Habout, Hin, Hsubm. }
  assert (HM : metadata_for (cut H csg) cs (map about csm)).
  { split; [rewrite Hsha; by eapply lists_perm|]. apply Forall_forall. intros x Hx. apply elem_of_list_In, in_map_iff in Hx as (c & <- & Hc%elem_of_list_In).
    assert (Hcs' : is_Some (hi_parents H !! c)) by (by apply Hin, Hsubm). destruct (Habout c Hcs') as (E1 & _ & E3).
    apply (cut_entry H csg (proj1 Hcsg) Hin); [|exact E3]. rewrite E1. by apply Hsubm. }
  set (e := api_env merge_orders git (hi_parents (cut H csg), children_from_parents (graph_order (hi_parents (cut H csg))))) in *.
  assert (Hes : forall m, m ∈ map about csm <-> m ∈ map about cs).
  { assert (Hp : map about csm ≡ₚ map about cs) by (apply Permutation_map; by eapply lists_perm). intros m. by rewrite Hp. }
  assert (Hline : exists lk : line -> bline T -> Prop, (forall l bl, lk l bl -> (if decide (r0 = ∅) then line_right (map about cs) else line_since zt (map about cs)) l bl) /\
    forall c f b l bl, c ∈ cs -> is_Some (hi_tree (cut H csg) c !! f) -> blame_of (cut H csg) (fallback git) c f b -> l ∈ b_lines b -> bl_sha bl = l_commit l ->
    bl_name bl = mc_author_name (meta_of zt (run_map zt parse_date (unlines ls)).1 (l_commit l)) -> bl_email bl = mc_author_email (meta_of zt (run_map zt parse_date (unlines ls)).1 (l_commit l)) ->
    bl_date bl = mc_date (meta_of zt (run_map zt parse_date (unlines ls)).1 (l_commit l)) -> lk l bl).
  { assert (Hlr : forall l bl, line_right (map about csm) l bl -> line_right (map about cs) l bl).
    { intros l bl (E1 & m & Hm & E2). split; [exact E1|]. exists m. split; [by apply Hes|exact E2]. }
    destruct (decide (r0 = ∅)) as [->|Hne].
    - exists (line_right (map about csm)). split; [exact Hlr|]. assert (Hb0 : before cs = []).
      { assert (Hno : forall q, q ∉ before cs) by (intros q Hq; destruct (rr_before _ _ _ _ _ _ _ HR q Hq) as (fs & Hfs & _); by rewrite lookup_empty in Hfs).
        destruct (before cs) as [|q bs]; [done|]. exfalso. apply (Hno q). left. }
      rewrite Hb0 in HR. intros c f b l bl. exact (full_line zt parse_date k (cut H csg) (fallback git) e cs (map about csm) ls HR HW Hml Hms HM c f b l bl).
    - exists (line_since zt (map about csm)). split.
      + intros l bl [Hl|(E1 & Hn & E2)]; [left; by apply Hlr|right]. split; [exact E1|]. split; [|exact E2]. intros m Hm. apply Hn. by apply Hes.
      + intros c f b l bl _ _ _ _. exact (since_line zt parse_date k (cut H csg) (fallback git) e cs (map about csm) ls (before cs) r0 HR HW Hml Hms HM l bl). }
  destruct Hline as (lk & Hlk & Hline).
  destruct (run_records zt parse_date cl count orders k (cut H csg) (fallback git) e cs (map about csm) ls (before cs) r0 HR HG HW Hml Hms HM Hord Hdet lk Hline skip (process_opts o) disk Hinit)
    as (xs & w & out & HF & Hw & Hrest1 & Hrest2 & Hrest3 & Hrest4).
  exists cs, xs, w, out. split; [exact Hcs|]. split; [by rewrite <- Hsame|]. split.
  { revert Hlk. generalize (if decide (r0 = ∅) then line_right (map about cs) else line_since zt (map about cs)). intros lk' Hlk. clear -HF Hin Hcl Hcsg Hsub2 Hlk. induction HF as [|c x cs0 xs0 Hx HF IH]; constructor.
    - apply (cut_records H csg (proj1 Hcsg) Hin Hcl (fallback git) lk); [apply Hsub2; left|exact Hlk|exact Hx].
    - apply IH. intros d Hd. apply Hsub2. by right. }
  split.
  { destruct w as [[r v]|]; [|exact Hw]. destruct Hw as (Hv & s' & Es' & ->). destruct (call_leaves csg cs s' Hcsg Hcs Hlast Es') as (C1 & C2 & C3 & C4).
    split; [exact Hv|]. split; [exact C1|]. split; [by apply C2|]. split; [intros Hlen q; by apply C3|exact C4]. }
  rewrite Etext, Emeta, Egraph, <- Elog. split; [exact Hrest1|]. split; [exact Hrest2|]. split; [exact Hrest3|]. split; [exact Hrest4|].
  exists csm. split; [by eapply lists_perm|]. intros i c Hi.
  assert (Hi' : map about csm !! i = Some (about c)) by (change (map about csm) with (about <$> csm); rewrite list_lookup_fmap, Hi; reflexivity).
  rewrite <- (C45_by_id_partial zt parse_date (map about csm) ls i (about c) HW Hml Hms); [|rewrite Hsha; apply Hcsm|exact Hi'].
  f_equal. symmetry. apply Habout, Hin, Hsubm. by eapply elem_of_list_lookup_2.
Qed.
Lemma call_delivers : exists s, setup_is = Ret s /\
  let act := api_act zt cl count orders merge_orders skip disk write_err git o s in
  exists cs xs w, lists_exactly cs (shows R (patch_revs o)) /\ children_last (g_parents R) cs /\
    Forall2 (commit_records_right H (fallback git) (if decide (r0 = ∅) then line_right (map about cs) else line_since zt (map about cs))) cs xs /\
    leaves_checkpoint H (fallback git) r0 cs w /\ delivers act write_err (concat xs) w.
Proof.
  destruct call_runs as (s & Es & Ep & El & cs & xs & w & out & H1 & H2 & H3 & H4 & H5 & H6 & H7 & _).
  exists s. split; [exact Es|]. cbv zeta. exists cs, xs, w. split; [exact H1|]. split; [exact H2|]. split; [exact H3|]. split; [exact H4|].
  by eapply delivers_of_run.
Qed.
End Call.
