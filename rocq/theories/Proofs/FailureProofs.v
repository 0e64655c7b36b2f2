(** * Runs in which the blame git is asked for fails: proofs for C83 *)
From Verif.Model Require Import Base GoStrings IncBlame LogParser ParentsGraph Process Msgp Checkpoint CheckpointFS CommitMeta FileInfo CodeInfo Net Pipeline GitBlame LogArgs Api.
From Verif.Spec Require Import Text UnifiedDiff Attribution GitLog CommitGraph History Processing Records MetaLog EndToEnd Delivery Selection Porcelain GitAnswers Continuing Failing.
From Verif.Proofs Require Import TextLemmas PipelineProofs PipelineMore PipelineCrash ApiProofs.
From Coq Require Import Lia.

(** [o'] is [o], or a panic. *)
Definition same_or_panic {A} (o o' : outcome A) : Prop := o' = o \/ exists m, o' = Panic m.
Lemma sop_bind {A C} (o o' : outcome A) (f f' : A -> outcome C) : same_or_panic o o' -> (forall a, o = Ret a -> same_or_panic (f a) (f' a)) -> same_or_panic (obind o f) (obind o' f').
Proof.
  intros [->|[m ->]] Hf; [|right; by eexists]. destruct o as [a|x|x]; cbn [obind]; [by apply Hf|by left|by left].
Qed.
Lemma sop_refl {A} (o : outcome A) : same_or_panic o o.
Proof. by left. Qed.
Lemma sop_fold {A C} (f f' : C -> A -> outcome C) l : (forall c a, same_or_panic (f c a) (f' c a)) -> forall c, same_or_panic (ofold f c l) (ofold f' c l).
Proof. intros Hf. induction l as [|a l IH]; intros c; cbn [ofold]; [apply sop_refl|]. apply sop_bind; [apply Hf|]. intros c' _. apply IH. Qed.

Section Slow.
Context (slow slow' : bytes -> bytes -> outcome blame) (Hs : forall c f, same_or_panic (slow c f) (slow' c f)).
Lemma change_sop hash ps st ch : same_or_panic (regular_change slow hash ps st ch) (regular_change slow' hash ps st ch).
Proof.
  unfold regular_change. destruct st as [r res]. apply sop_bind; [apply sop_refl|]. intros d _. cbv zeta. destruct (d_binary d); [apply sop_refl|].
  destruct (bool_decide (d_path d = [])); [apply sop_refl|]. apply sop_bind; [apply sop_refl|]. intros [pb|] _; [apply sop_refl|].
  apply sop_bind; [apply sop_refl|]. intros [b|] _; [|apply sop_refl]. apply sop_bind; [|intros; apply sop_refl]. destruct (b_binary b); [apply Hs|apply sop_refl].
Qed.
Lemma regular_sop r ps c : same_or_panic (process_regular slow r ps c) (process_regular slow' r ps c).
Proof.
  unfold process_regular. destruct ps as [|p [|q l]]; [| |apply sop_refl].
  - apply sop_bind; [apply sop_fold; intros; apply change_sop|]. intros [r1 res] _. apply sop_refl.
  - apply sop_bind; [apply sop_fold; intros; apply change_sop|]. intros [r1 res] _. apply sop_refl.
Qed.
Context (ps ch : graph) (os : bytes -> orders).
Notation e := (Env ps ch slow os). Notation e' := (Env ps ch slow' os).
(** The step is the same, or it panics and emits no more than the other. *)
Definition step_like (x x' : pst * outcome unit) : Prop := x' = x \/ exists m, x'.2 = Panic m /\ s_out x'.1 `prefix_of` s_out x.1.
Lemma new_like s c : step_like (new_commit e s c) (new_commit e' s c).
Proof.
  assert (Hp : s_out s `prefix_of` s_out (new_commit e s c).1).
  { destruct (new_commit e s c) as [s' r] eqn:E. destruct (new_commit_out e s c s' r E) as [rs Hrs]. cbn [fst]. exists rs. exact Hrs. }
  revert Hp. unfold new_commit. change (env_parents e' (lc_hash c)) with (env_parents e (lc_hash c)). destruct (decide _); [by left|]. cbn [e_slow].
  destruct (regular_sop (s_repo s) (env_parents e (lc_hash c)) c) as [->|[m ->]]; [by left|]. intros Hp. right. exists m. split; [done|exact Hp].
Qed.
Lemma commit_like s c : step_like (process_commit e s c) (process_commit e' s c).
Proof.
  unfold process_commit. destruct (decide _); [apply new_like|]. destruct (bool_decide _); [by left|].
  change (got_merge_parts e' s) with (got_merge_parts e s). destruct (got_merge_parts e s) as [s1 [[]|m|m]]; [apply new_like|by left|by left].
Qed.
Lemma commits_out s cs s' r : process_commits e s cs = (s', r) -> s_out s `prefix_of` s_out s'.
Proof.
  revert s. induction cs as [|c cs IH]; intros s; cbn [process_commits]; [intros [= <- <-]; done|].
  destruct (process_commit e s c) as [s1 r1] eqn:E. destruct (process_commit_out e s c s1 r1 E) as [rs Hrs].
  assert (Hp : s_out s `prefix_of` s_out s1) by (rewrite Hrs; by exists rs).
  destruct r1 as [[]|m|m]; [|intros [= <- <-]; exact Hp..]. intros Hx. etrans; [exact Hp|by eapply IH].
Qed.
Lemma commits_like s cs : step_like (process_commits e s cs) (process_commits e' s cs).
Proof.
  revert s. induction cs as [|c cs IH]; intros s; cbn [process_commits]; [by left|].
  destruct (commit_like s c) as [->|(m & Hm & Hp)].
  - destruct (process_commit e s c) as [s1 [[]|m|m]]; [apply IH|by left|by left].
  - right. exists m. destruct (process_commit e' s c) as [s1' r1']. cbn [fst snd] in *. subst r1'. split; [done|]. cbn [fst].
    destruct (process_commit e s c) as [s1 [[]|m'|m']]; [|exact Hp..]. cbn [fst] in Hp. etrans; [exact Hp|].
    destruct (process_commits e s1 cs) as [s2 r2] eqn:E. by eapply commits_out.
Qed.
Lemma log_like s cs : step_like (process_log e s cs) (process_log e' s cs).
Proof.
  unfold process_log. destruct (commits_like s cs) as [->|(m & Hm & Hp)].
  - by left.
  - right. exists m. destruct (process_commits e' s cs) as [s1' r1']. cbn [fst snd] in *. subst r1'. split; [done|]. cbn [fst].
    destruct (process_commits e s cs) as [s1 [[]|m'|m']]; [|exact Hp..]. cbn [fst] in Hp. destruct (decide _); [exact Hp|]. etrans; [exact Hp|].
    destruct (got_merge_parts e s1) as [s2 r2] eqn:E. destruct (got_merge_out e s1 s2 r2 E) as [rs Hrs]. cbn [fst]. exists rs. exact Hrs.
Qed.
Lemma run_like skip o s log out w : run_top skip e o s log = (out, Ret tt, w) ->
  run_top skip e' o s log = (out, Ret tt, w) \/ exists out' m w', run_top skip e' o s log = (out', Panic m, w') /\ out' `prefix_of` out.
Proof.
  unfold run_top. destruct log as [|c log]; [by left|]. destruct (init_checkpoints skip o s) as [r|m|m]; [|by left|by left].
  destruct (log_like (pst_init r) (c :: log)) as [->|(m & Hm & Hp)]; [by left|]. intros E. right. rewrite Hm. eexists _, m, None. split; [reflexivity|].
  destruct (process_log e (pst_init r) (c :: log)) as [s1 [[]|m'|m']]; cbn [fst snd] in *; [|discriminate E..].
  destruct (decide _); [discriminate E|]. injection E as <- _. exact Hp.
Qed.
End Slow.

(** Records of a part of the results. *)
Lemma records_part {T L} (zt : T) (cl : classifiers L) count meta orders cache n out out' xs : records_for zt cl count meta orders cache n out xs -> out' `prefix_of` out ->
  exists xs', records_for zt cl count meta orders cache n out' xs' /\ xs' `prefix_of` xs.
Proof.
  intros Hr. revert out'. induction Hr as [cache n|cache n r rs cache' x xs Hm Hx Hr IH]; intros out' Hp.
  - apply prefix_nil_inv in Hp as ->. exists []. split; [constructor|done].
  - destruct out' as [|r' out']; [exists []; split; [constructor|apply prefix_nil]|]. apply prefix_cons_inv_1 in Hp as Hr1. apply prefix_cons_inv_2 in Hp. subst r'.
    destruct (IH out' Hp) as (xs' & Hxs' & Hpre). exists (x :: xs'). split; [by econstructor|by apply prefix_cons].
Qed.
Lemma concat_part {A} (l l' : list (list A)) : l' `prefix_of` l -> concat l' `prefix_of` concat l.
Proof. intros [k ->]. rewrite concat_app. by exists (concat k). Qed.

(** The blame the run falls back on, if git may fail. *)
Lemma fallback_sop git git' : may_fail git git' -> forall c f, same_or_panic (fallback git c f) (fallback git' c f).
Proof.
  intros HM c f. unfold fallback, slow_git_blame, git_blame. destruct (HM NoContext (blame_args c f)) as [->|[x ->]]; [apply sop_refl|]. right. by eexists.
Qed.

(** [o'] is [o], or an error, or a panic. *)
Definition same_or_fails {A} (o o' : outcome A) : Prop := o' = o \/ (exists m, o' = Err m) \/ exists m, o' = Panic m.
Lemma sof_bind {A C} (o o' : outcome A) (f f' : A -> outcome C) : same_or_fails o o' -> (forall a, o = Ret a -> same_or_fails (f a) (f' a)) -> same_or_fails (obind o f) (obind o' f').
Proof.
  intros [->|[[m ->]|[m ->]]] Hf; [|right; left; by eexists|right; right; by eexists]. destruct o as [a|x|x]; cbn [obind]; [by apply Hf|by left|by left].
Qed.
Lemma sof_refl {A} (o : outcome A) : same_or_fails o o.
Proof. by left. Qed.

Section Setup.
Context {T : Type} (zt : T) (parse_date : bytes -> option T) (graph_order : graph -> list (bytes * list bytes)).
Context (git git' : bound -> list bytes -> outcome bytes) (HM : may_fail git git') (tmp tmp' : nat -> outcome bytes) (HT : forall n, same_or_fails (tmp n) (tmp' n)).
Context (repo_dir : bytes) (o : ropts).
Lemma prepare_sof : prepare git repo_dir = Ret tt -> same_or_fails (prepare git repo_dir) (prepare git' repo_dir).
Proof. intros _. unfold prepare, head_id. destruct (HM NoContext [B "rev-parse"; B "HEAD"]) as [->|[x ->]]; [by left|]. right. left. eexists. reflexivity. Qed.
Lemma piped_sof x args : same_or_fails (exec_piped git x args) (exec_piped git' x args).
Proof. unfold exec_piped. destruct (HM x args) as [->|[e ->]]; [by left|]. right. right. by eexists. Qed.
Lemma setup_sof s s' : code_setup zt parse_date graph_order git tmp repo_dir o = Ret s -> su_prep_err s = None -> su_log_err s = None ->
  code_setup zt parse_date graph_order git' tmp' repo_dir o = Ret s' ->
  s' = s \/ (exists x, su_prep_err s' = Some x) \/ (su_prep_err s' = None /\ exists x, su_log_err s' = Some x).
Proof.
  unfold code_setup. intros E Hp Hl E'.
  assert (Hc : same_or_fails (do _ <- prepare git repo_dir; do g <- read_graph graph_order git o; do m <- commit_info zt parse_date git tmp o; Ret (g, m))
                             (do _ <- prepare git' repo_dir; do g <- read_graph graph_order git' o; do m <- commit_info zt parse_date git' tmp' o; Ret (g, m))).
  { destruct (prepare git repo_dir) as [[]|x|x] eqn:Ep; cbn [obind] in E; [|injection E as <-; discriminate Hp|discriminate E]. rewrite <- Ep. apply sof_bind; [apply prepare_sof, Ep|]. intros _ _.
    apply sof_bind; [unfold read_graph; apply sof_bind; [apply piped_sof|intros; apply sof_refl]|]. intros g _. apply sof_bind; [|intros; apply sof_refl].
    unfold commit_info. apply sof_bind; [apply HT|]. intros f _. apply sof_bind; [apply piped_sof|]. intros; apply sof_refl. }
  destruct Hc as [Hc|[[m Hc]|[m Hc]]]; rewrite Hc in E'; [|injection E' as <-; right; left; by eexists|discriminate E'].
  destruct (do _ <- prepare git repo_dir; _) as [[g m]|x|x]; [|injection E as <-; discriminate Hp|discriminate E].
  assert (Hq : same_or_fails (patch_log git tmp o) (patch_log git' tmp' o)) by (unfold patch_log; apply sof_bind; [apply HT|intros; apply piped_sof]).
  destruct Hq as [Hq|[[x Hq]|[x Hq]]]; rewrite Hq in E'; [|injection E' as <-; right; right; split; [done|by eexists]|discriminate E'].
  left. rewrite E in E'. by injection E'.
Qed.
End Setup.

Section Failing.
Context {T L : Type} (zt : T) (parse_date : bytes -> option T) (graph_order : graph -> list (bytes * list bytes)) (merge_orders : bytes -> Process.orders).
Context (git git' : bound -> list bytes -> outcome bytes) (HM : may_fail git git') (tmp : nat -> outcome bytes) (repo_dir : bytes) (o : ropts).
Context (k : nat) (R : gitrepo) (H : history) (about : bytes -> meta_entry T).
Context (HU : usable k parse_date R H about) (HA : answers R H about git (graph_revs o) (patch_revs o)).
Context (Hgo : forall g, graph_order g ≡ₚ map_to_list g) (Hmo : forall c, any_orders (merge_orders c)).
Context (Hsub : forall c, shows R (patch_revs o) c -> selected R (ro_all o) c).
Context (r0 : repo) (Hr0 : checkpoint_right H (fallback git) r0).
Context (Hpres : forall c q, shows R (patch_revs o) c -> parent (hi_parents H) c q -> ~ shows R (patch_revs o) q -> is_Some (r0 !! q)).
Context (cl : classifiers L) (count : bytes -> bytes -> bytes -> list (Z * line_type) * totals) (orders : nat -> list (bytes * blame) -> list (bytes * blame)).
Context (skip : bytes -> pres unit) (disk : fs) (write_err : option bytes).
Context (Hord : forall n, any_perm (orders n)) (Hdet : detector_works cl).
Context (Hinit : init_checkpoints skip (process_opts o) disk = Ret r0).

Lemma call_failing s' : code_setup zt parse_date graph_order git' tmp repo_dir o = Ret s' ->
  exists cs xs, lists_exactly cs (shows R (patch_revs o)) /\ children_last (g_parents R) cs /\
    Forall2 (commit_records_right H (fallback git) (if decide (r0 = ∅) then line_right (map about cs) else line_since zt (map about cs))) cs xs /\
    never_silent (api_act zt cl count orders merge_orders skip disk write_err git' o s') (concat xs).
Proof.
  intros Es'. set (tmp0 := fun n => match tmp n with Ret f => Ret f | _ => Ret [] end).
  assert (Ht : forall n, exists f, tmp0 n = Ret f) by (intros n; unfold tmp0; destruct (tmp n); by eexists).
  assert (HT : forall n, same_or_fails (tmp0 n) (tmp n)).
  { intros n. unfold tmp0. destruct (tmp n) as [f|x|x]; [by left|right; left; by eexists|right; right; by eexists]. }
  destruct (Ht 0) as [f0 Ht0], (Ht 1) as [f1 Ht1].
  destruct (call_runs zt parse_date graph_order merge_orders git tmp0 repo_dir o k R H about HU HA f0 f1 Ht0 Ht1 Hgo Hmo Hsub r0 Hr0 Hpres cl count orders skip disk Hord Hdet Hinit)
    as (s & Es & Ep & El & cs & xs & w & out & H1 & H2 & H3 & H4 & H5 & H6 & H7 & _).
  exists cs, xs. split; [exact H1|]. split; [exact H2|]. split; [exact H3|]. unfold api_act, never_silent.
  assert (Hearly : forall x, su_prep_err s' = Some x \/ (su_prep_err s' = None /\ su_log_err s' = Some x) ->
    let act := act zt cl count (su_meta s') orders ∅ skip (api_env merge_orders git' (su_graph s')) (process_opts o) disk (su_text s') (su_prep_err s') (su_log_err s') write_err in
    (exists n, forall m c, nsteps (step act) m code_call c -> m <= n) /\
    forall c, rtc (step act) code_call c -> received c `prefix_of` concat xs /\ (forall w, returned c = Some (Ret tt, w) -> c_res ∈ closed c -> received c = concat xs) /\
      (final act c -> crashing act c \/ (all_ended c /\ c_res ∈ closed c /\ exists r w, returned c = Some (r, w) /\ (r = Ret tt /\ received c = concat xs \/ exists e, r = Err e)))).
  { intros x Hx act0.
    assert (Hall : (exists n, forall m c, nsteps (step act0) m code_call c -> m <= n) /\
      forall c, rtc (step act0) code_call c -> ~ crashing act0 c /\ received c = [] /\ (final act0 c -> all_ended c /\ c_res ∈ closed c /\ returned c = Some (Err x, None))).
    { destruct Hx as [Hx|[Hx Hy]]; [by apply schedule_of_prep_error|by apply schedule_of_log_error]. }
    destruct Hall as [Hb Hall]. split; [exact Hb|]. intros c Hc. destruct (Hall c Hc) as (_ & Er & Hf). split; [rewrite Er; apply prefix_nil|]. split.
    - intros w' Hret _. exfalso.
      (* the call has ended for the caller: go on to a final configuration *)
      destruct Hb as [n Hn]. assert (Hno : forall j c', rtc (step act0) code_call c' -> (exists i, nsteps (step act0) i code_call c' /\ n <= i + j) -> returned c' = Some (Ret tt, w') -> False).
      { induction j as [|j IH]; intros c' Hc' (i & Hi & Hij) Hr'.
        - assert (Hfin : final act0 c'). { intros c2 Hs. assert (Hx2 : nsteps (step act0) (S i) code_call c2) by (by eapply nsteps_r). apply Hn in Hx2. lia. }
          destruct (Hall c' Hc') as (_ & _ & Hf'). destruct (Hf' Hfin) as (_ & _ & E). rewrite E in Hr'. discriminate Hr'.
        - assert (Hnf : ~ ~ (final act0 c' \/ exists c2, step act0 c' c2)).
          { intros Hx2. apply Hx2. left. intros c2 Hs. apply Hx2. right. by exists c2. }
          apply Hnf. intros [Hfin|[c2 Hs]].
          + destruct (Hall c' Hc') as (_ & _ & Hf'). destruct (Hf' Hfin) as (_ & _ & E). rewrite E in Hr'. discriminate Hr'.
          + apply (IH c2); [by eapply rtc_r|exists (S i); split; [by eapply nsteps_r|lia]|].
            unfold returned in *. destruct (locals c' !! 0) as [[[]| | | | |]|] eqn:E0; try done. injection Hr' as -> ->.
            by rewrite (stop_stays _ _ _ 0 (LM (MStop (Ret tt) w')) (rtc_once _ _ Hs) eq_refl E0). }
      destruct (rtc_nsteps_1 _ _ Hc) as [i Hi]. apply (Hno n c Hc); [exists i; split; [exact Hi|lia]|exact Hret].
    - intros Hfin. right. destruct (Hf Hfin) as (E1 & E2 & E3). split; [exact E1|]. split; [exact E2|]. exists (Err x), None. split; [exact E3|]. right. by eexists. }
  destruct (setup_sof zt parse_date graph_order git git' HM tmp0 tmp HT repo_dir o s s' Es Ep El Es') as [->|[[x Hx]|[Hx [x Hy]]]]; [|apply (Hearly x); by left|apply (Hearly x); by right].
  rewrite Ep, El. clear Hearly.
  destruct (run_like (fallback git) (fallback git') (fallback_sop git git' HM) (su_graph s).1 (su_graph s).2 merge_orders skip (process_opts o) disk (log_run (su_text s)).1 out w H6) as [Hrun|(out' & m & w' & Hrun & Hpre)].
  - destruct (every_schedule zt cl count (su_meta s) orders ∅ skip (api_env merge_orders git' (su_graph s)) (process_opts o) disk (su_text s) None None write_err out (Ret tt) w xs eq_refl eq_refl H5 Hrun ltac:(done) H7) as [Hb Hall].
    split; [exact Hb|]. intros c Hc. destruct (Hall c Hc) as (_ & A2 & A3 & A4). split; [exact A2|]. split; [intros ? _; exact A3|]. intros Hfin. right. destruct (A4 Hfin) as (B1 & B2 & B3 & B4).
    split; [exact B1|]. split; [exact B3|]. eexists _, _. split; [exact B4|]. unfold with_write. destruct w as [wr|]; [|left; by split]. destruct write_err as [we|]; [right; by eexists|left; by split].
  - destruct (records_part zt cl count (su_meta s) orders ∅ 0 out out' xs H7 Hpre) as (xs' & Hxs' & Hp').
    destruct (call_reaches_end zt cl count (su_meta s) orders ∅ skip (api_env merge_orders git' (su_graph s)) (process_opts o) disk (su_text s) None None write_err out' (Panic m) w' xs' eq_refl eq_refl Hrun Hxs') as (f & Hf & Hend).
    pose proof (call_end_final zt cl count (su_meta s) orders ∅ skip (api_env merge_orders git' (su_graph s)) (process_opts o) disk (su_text s) None None write_err _ _ _ _ _ Hend) as Hfin.
    split; [by eapply bounded|]. intros c Hc.
    destruct (schedule_of_panic zt cl count (su_meta s) orders ∅ skip (api_env merge_orders git' (su_graph s)) (process_opts o) disk (su_text s) None None write_err out' m w' xs' eq_refl eq_refl Hrun Hxs' c Hc) as (A1 & A2 & _).
    destruct (panic_no_return zt cl count (su_meta s) orders ∅ skip (api_env merge_orders git' (su_graph s)) (process_opts o) disk (su_text s) None None write_err out' m w' xs' eq_refl eq_refl Hrun Hxs' c Hc) as [A3 A4].
    split; [etrans; [exact A1|by apply concat_part]|]. split; [intros ? E; rewrite A3 in E; discriminate E|]. intros Hc'. left. by apply A4.
Qed.
End Failing.
