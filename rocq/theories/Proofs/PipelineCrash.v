(** * A panic of the goroutine that makes the records: proofs for C54 and C70 *)
From Verif.Model Require Import Base GoStrings IncBlame LogParser ParentsGraph Process Msgp Checkpoint CheckpointFS CommitMeta FileInfo CodeInfo Net Pipeline.
From Verif.Spec Require Import Delivery.
From Verif.Proofs Require Import NetProofs PipelineProofs PipelineMore.
From Coq Require Import Lia.

Section Conf.
Context {Ch V L : Type} `{Countable Ch} (act : L -> action Ch V L) (owns reads : L -> Ch -> Prop) (gives : Ch -> Ch -> Prop).
Notation step := (step act).
Context (D : disciplined act owns reads gives).
Lemma strip c c1 c2 : exclusive owns reads c -> step c c1 -> rtc step c c2 -> exists d, rtc step c1 d /\ (c2 = d \/ step c2 d).
Proof.
  intros HE H1 H2. revert c1 HE H1. induction H2 as [c|c c' c2 Hs Hr IH]; intros c1 HE H1; [exists c1; split; [apply rtc_refl|by right]|].
  destruct (diamond act owns reads gives D c c1 c' HE H1 Hs) as [<-|(c3 & H3 & H4)]; [exists c2; split; [done|by left]|].
  destruct (IH c3) as (d & Hd & Hc); [by eapply exclusive_step|done|]. exists d. split; [by eapply rtc_l|done].
Qed.
Lemma confluent c c1 c2 : exclusive owns reads c -> rtc step c c1 -> rtc step c c2 -> exists d, rtc step c1 d /\ rtc step c2 d.
Proof.
  intros HE H1. revert c2. induction H1 as [c|c c' c1 Hs Hr IH]; intros c2 H2; [by exists c2; split; [|apply rtc_refl]|].
  destruct (strip c c' c2 HE Hs H2) as (d & Hd & Hc). destruct (IH ltac:(by eapply exclusive_step) d Hd) as (d' & Hd1 & Hd2).
  exists d'. split; [done|]. destruct Hc as [->|Hc]; [done|by eapply rtc_l].
Qed.
Lemma stop_stays c c' i l : rtc step c c' -> act l = Stop -> locals c !! i = Some l -> locals c' !! i = Some l.
Proof.
  intros Hs A. induction Hs as [|c c1 c' H1 _ IH]; [done|]. intros Hi. apply IH.
  destruct H1 as [ls cl a j l1 l2 ch v k kr Ha Aa Hj Aj Hc|ls cl j l1 ch kr Hj Aj Hc|ls cl a l1 ch k Ha Aa Hc]; cbn [locals] in *.
  - rewrite !list_lookup_insert_ne; [done| |]; intros ->; congruence.
  - rewrite list_lookup_insert_ne; [done|]; intros ->; congruence.
  - rewrite list_lookup_insert_ne; [done|]; intros ->; congruence.
Qed.
End Conf.

Section Pipe.
Context {T L : Type} (zt : T) (cl : classifiers L).
Context (count : bytes -> bytes -> bytes -> list (Z * line_type) * totals) (meta : gmap bytes (mcommit T)).
Context (orders : nat -> list (bytes * blame) -> list (bytes * blame)) (cache0 : gmap bytes bytes).
Context (skip : bytes -> pres unit) (e : env) (o : popts) (disk : fs) (text : bytes) (prep_err log_err write_err : option bytes).
Notation act := (act zt cl count meta orders cache0 skip e o disk text prep_err log_err write_err).
Notation step := (step act).
Notation local := (@local T L).
Notation config := (config chan local).
Notation records_for := (records_for zt cl count meta orders).

Ltac comm i j := (eapply rtc_l; [refine (step_comm _ _ _ i j _ _ _ _ _ _ _ _ _ _ _); [reflexivity|reflexivity|reflexivity|reflexivity|]|]; cbn [insert list_insert]).
Ltac eof j := (eapply rtc_l; [refine (step_eof _ _ _ j _ _ _ _ _ _); [reflexivity|reflexivity|]|]; cbn [insert list_insert]).
Ltac clos i := (eapply rtc_l; [refine (step_close _ _ _ i _ _ _ _ _ _); [reflexivity|reflexivity|]|]; cbn [insert list_insert]).

(** ** The result that cannot be turned into records *)
Fixpoint crash_after (cache : gmap bytes bytes) (n : nat) (pre : list result) (r : result) (xs : list (list (bresult T L))) : Prop :=
  match pre with
  | [] => xs = [] /\ exists m, on_result zt cl count meta orders cache n r = WCrash m
  | a :: pre => exists cache' x xs', is_Some (meta !! r_commit a) /\ code_info_files zt cl count meta (orders n) cache a = Ret (cache', x) /\
                  xs = x :: xs' /\ crash_after cache' (S n) pre r xs'
  end.
Lemma no_records_crash cache n pre r xs : records_for cache n pre xs -> (forall xs', ~ records_for cache n (pre ++ [r]) xs') -> crash_after cache n pre r xs.
Proof.
  induction 1 as [cache n|cache n a rs cache' x xs Hm Hx Hr IH]; intros Hno.
  - split; [done|]. unfold on_result. destruct (meta !! r_commit r) as [c|] eqn:Em; [|by eexists].
    destruct (code_info_files _ _ _ _ _ _ _) as [[cache' x]|m|m] eqn:Ex; [|by eexists..]. exfalso. apply (Hno [x]). cbn. econstructor; [by eexists|exact Ex|constructor].
  - exists cache', x, xs. split; [done|]. split; [done|]. split; [done|]. apply IH. intros xs' Hx'. apply (Hno (x :: xs')). cbn. by econstructor.
Qed.
Lemma records_or_crash rs : forall cache n, (exists xs, records_for cache n rs xs) \/
  exists pre r post xs, rs = pre ++ r :: post /\ records_for cache n pre xs /\ forall xs', ~ records_for cache n (pre ++ [r]) xs'.
Proof.
  induction rs as [|a rs IH]; intros cache n; [left; exists []; constructor|].
  assert (Hd : (exists cache' x, is_Some (meta !! r_commit a) /\ code_info_files zt cl count meta (orders n) cache a = Ret (cache', x)) \/
    forall cache' x, is_Some (meta !! r_commit a) -> code_info_files zt cl count meta (orders n) cache a <> Ret (cache', x)).
  { destruct (code_info_files _ _ _ _ _ _ _) as [[cache' x]|m|m]; [|right; done..]. destruct (meta !! r_commit a) as [c|]; [|right; by intros ? ? [? ?]]. left. exists cache', x. by split; [eexists|]. }
  destruct Hd as [(cache' & x & Hm & Hx)|Hno].
  - destruct (IH cache' (S n)) as [[xs Hxs]|(pre & r & post & xs & -> & Hp & Hr)]; [left; exists (x :: xs); by econstructor|].
    right. exists (a :: pre), r, post, (x :: xs). split; [done|]. split; [by econstructor|]. intros xs' H'. cbn in H'. inversion H' as [|? ? ? ? cc y ys _ Hy Hrest]; subst.
    rewrite Hx in Hy. injection Hy as <- <-. by apply (Hr ys).
  - right. exists [], a, rs, []. split; [done|]. split; [constructor|]. intros xs' H'. inversion H' as [|? ? ? ? cc y ys Hm Hy Hrest]; subst. by apply (Hno cc y).
Qed.

(** ** One schedule until the panic *)
Lemma send_part p nx rs pre r cache n got cs xs : quiet n cs -> crash_after cache n (rs ++ pre) r xs ->
  exists xs1 xs2 cache' n' cs', xs = xs1 ++ xs2 /\ quiet n' cs' /\ (c_commits ∈ cs <-> c_commits ∈ cs') /\ crash_after cache' n' pre r xs2 /\
    rtc step (cfg (send_all write_err rs nx) p (WLoop cache n) FLoop (ULoop got) cs)
             (cfg (after_sends write_err nx) p (WLoop cache' n') FLoop (ULoop (got ++ concat xs1)) cs').
Proof.
  revert cache n got cs xs. induction rs as [|a rs IH]; intros cache n got cs xs Hq Hrf.
  - exists [], xs, cache, n, cs. rewrite app_nil_r. split; [done|]. split; [done|]. split; [done|]. split; [done|apply rtc_refl].
  - cbn [app crash_after] in Hrf. destruct Hrf as (cache' & x & xs' & [c Hc] & Hx & -> & Hrest).
    destruct (IH cache' (S n) (got ++ x) ({[ c_blames n ]} ∪ cs) xs' (quiet_add n cs Hq) Hrest) as (xs1 & xs2 & ca & n' & cs' & -> & Hq' & Hcm & Hr' & Hreach).
    exists (x :: xs1), xs2, ca, n', cs'. split; [done|]. split; [done|]. split; [rewrite <- Hcm; set_solver|]. split; [done|].
    cbn [send_all concat]. unfold cfg at 1. comm 0 2; [by eapply quiet_other|].
    assert (Hon : on_result zt cl count meta orders cache n a = WRes c n x cache') by (unfold on_result; by rewrite Hc, Hx). rewrite Hon.
    comm 2 3; [by eapply quiet_other|]. eapply rtc_transitive; [apply (send_records zt cl count meta orders cache0 skip e o disk text prep_err log_err write_err _ _ n x cache' got cs Hq)|]. rewrite app_assoc. exact Hreach.
Qed.
Lemma send_crash p nx pre r post cache n got cs xs : quiet n cs -> crash_after cache n pre r xs ->
  exists x n' cs', quiet n' cs' /\ rtc step (cfg (send_all write_err (pre ++ r :: post) nx) p (WLoop cache n) FLoop (ULoop got) cs)
             (cfg (send_all write_err post nx) p (WCrash x) FLoop (ULoop (got ++ concat xs)) cs').
Proof.
  revert cache n got cs xs. induction pre as [|a pre IH]; intros cache n got cs xs Hq Hrf.
  - destruct Hrf as [-> [x Hx]]. exists x, n, cs. split; [done|]. cbn [app send_all concat]. rewrite app_nil_r. unfold cfg at 1. comm 0 2; [by eapply quiet_other|]. rewrite Hx. apply rtc_refl.
  - cbn [crash_after] in Hrf. destruct Hrf as (cache' & x & xs' & [c Hc] & Hx & -> & Hrest).
    destruct (IH cache' (S n) (got ++ x) ({[ c_blames n ]} ∪ cs) xs' (quiet_add n cs Hq) Hrest) as (m & n' & cs' & Hq' & Hreach).
    exists m, n', cs'. split; [done|].
    cbn [app send_all concat]. unfold cfg at 1. comm 0 2; [by eapply quiet_other|].
    assert (Hon : on_result zt cl count meta orders cache n a = WRes c n x cache') by (unfold on_result; by rewrite Hc, Hx). rewrite Hon.
    comm 2 3; [by eapply quiet_other|]. eapply rtc_transitive; [apply (send_records zt cl count meta orders cache0 skip e o disk text prep_err log_err write_err _ _ n x cache' got cs Hq)|]. rewrite app_assoc. exact Hreach.
Qed.
(** Run has not got past the worker. *)
Definition before_done (m : mstate) : Prop :=
  match m with MLoop _ | MSend _ _ _ | MDrain _ | MWait _ _ | MCloseGit _ _ | MWaitW _ _ | MCrash _ => True | _ => False end.
Lemma sends_before rs nx : before_done (send_all write_err rs nx).
Proof. destruct rs; cbn; [|done]. destruct nx; cbn; try done. by destruct (decide _). Qed.
Lemma app_split {A} (r1 r2 pre : list A) r post : r1 ++ r2 = pre ++ r :: post ->
  (exists pre2, pre = r1 ++ pre2 /\ r2 = pre2 ++ r :: post) \/ (exists post1, r1 = pre ++ r :: post1 /\ post = post1 ++ r2).
Proof.
  revert pre. induction r1 as [|a r1 IH]; intros pre E; [left; by exists pre|]. destruct pre as [|b pre]; cbn in E; injection E as -> E.
  - right. by exists r1.
  - destruct (IH pre E) as [(p2 & -> & ->)|(p1 & -> & ->)]; [left; by exists p2|right; by exists p1].
Qed.

Lemma run_crash x cs po s pre r post cache n got cl0 xs :
  at_state skip o disk x s cs -> quiet n cl0 -> c_commits ∉ cl0 -> s_out (process_log e s cs).1 = s_out s ++ pre ++ r :: post -> crash_after cache n pre r xs ->
  exists m p wm n' cl1, before_done m /\ quiet n' cl1 /\
    rtc step (cfg (MLoop x) (PSend cs po) (WLoop cache n) FLoop (ULoop got) cl0) (cfg m p (WCrash wm) FLoop (ULoop (got ++ concat xs)) cl1).
Proof.
  revert x s pre cache n got cl0 xs. induction cs as [|c cs IH]; intros x s pre cache n got cl0 xs Hat Hq Hc Hout Hrf.
  - destruct Hat as [->|(_ & Hn & _)]; [|done]. assert (Hcl : rtc step (cfg (MLoop (Some s)) (PSend [] po) (WLoop cache n) FLoop (ULoop got) cl0)
                           (cfg (on_end e write_err (Some s)) (PDone po) (WLoop cache n) FLoop (ULoop got) ({[ c_commits ]} ∪ cl0))).
    { unfold cfg. clos 1; [done|]. eof 0; [set_solver|]. apply rtc_refl. }
    apply quiet_commits in Hq. unfold process_log in *. cbn [process_commits] in *. unfold on_end in Hcl.
    destruct (decide (s_mparts s = ∅)) as [He|He].
    + exfalso. cbn [fst] in Hout. rewrite <- (app_nil_r (s_out s)) in Hout at 1. apply app_inv_head in Hout. by destruct pre.
    + destruct (got_merge_parts e s) as [s' oc] eqn:Eg. cbn [fst snd] in *. pose proof Eg as Eg0. apply got_merge_out in Eg as [rs' E']. rewrite E' in Hout. apply app_inv_head in Hout as ->.
      rewrite (new_results_app _ _ _ E') in Hcl.
      destruct (send_crash (PDone po) (match oc with Ret _ => NWrite s' | Err m | Panic m => NCrash m end) pre r post cache n got _ xs Hq Hrf) as (wm & n' & cs' & Hq' & Hreach).
      eexists _, _, wm, n', cs'. split; [|split; [exact Hq'|]]; [|eapply rtc_transitive; [exact Hcl|exact Hreach]]. apply sends_before.
  - assert (Hcl : rtc step (cfg (MLoop x) (PSend (c :: cs) po) (WLoop cache n) FLoop (ULoop got) cl0)
                           (cfg (on_commit skip e o disk write_err (Some s) c) (PSend cs po) (WLoop cache n) FLoop (ULoop got) cl0)).
    { rewrite <- (at_commit skip e o disk write_err x s _ c Hat). unfold cfg. comm 1 0; [done|]. apply rtc_refl. }
    unfold on_commit in Hcl. unfold process_log in *. cbn [process_commits] in *.
    destruct (process_commit e s c) as [s' oc] eqn:Ec. cbn [fst snd] in Hcl. apply process_commit_out in Ec as [r1 E1]. rewrite (new_results_app _ _ _ E1) in Hcl.
    assert (exists r2, pre ++ r :: post = r1 ++ r2 /\ match oc with
      | Ret _ => s_out (process_log e s' cs).1 = s_out s' ++ r2 | _ => r2 = [] end) as (r2 & Er & Hr2).
    { destruct oc as [[]|m|m]; cbn [fst] in Hout.
      - assert (exists r2, s_out (process_log e s' cs).1 = s_out s' ++ r2) as [r2 E2] by apply process_log_out.
        exists r2. unfold process_log in E2. rewrite E2, E1, <- app_assoc in Hout. apply app_inv_head in Hout as <-. split; [done|]. unfold process_log. exact E2.
      - exists []. rewrite E1 in Hout. apply app_inv_head in Hout as <-. by rewrite app_nil_r.
      - exists []. rewrite E1 in Hout. apply app_inv_head in Hout as <-. by rewrite app_nil_r. }
    symmetry in Er. apply app_split in Er as [(pre2 & -> & ->)|(post1 & -> & ->)].
    + destruct (send_part (PSend cs po) (match oc with Ret _ => NLoop s' | Err m => NDrain m | Panic m => NCrash m end) r1 pre2 r cache n got cl0 xs Hq Hrf)
        as (xs1 & xs2 & ca & n' & cs' & -> & Hq' & Hcm & Hr' & Hreach).
      assert (Hc' : c_commits ∉ cs') by (by rewrite <- Hcm).
      destruct oc as [[]|m|m]; cbn [after_sends] in Hreach; [|by destruct pre2..].
      destruct (IH (Some s') s' pre2 ca n' (got ++ concat xs1) cs' xs2 (or_introl eq_refl) Hq' Hc' Hr2 Hr') as (m & p & wm & n'' & cl1 & HL & Hq1 & HR).
      exists m, p, wm, n'', cl1. split; [exact HL|]. split; [done|]. rewrite concat_app, app_assoc.
      eapply rtc_transitive; [exact Hcl|]. eapply rtc_transitive; [exact Hreach|exact HR].
    + destruct (send_crash (PSend cs po) (match oc with Ret _ => NLoop s' | Err m => NDrain m | Panic m => NCrash m end) pre r post1 cache n got cl0 xs Hq Hrf) as (wm & n' & cs' & Hq' & Hreach).
      eexists _, _, wm, n', cs'. split; [|split; [exact Hq'|eapply rtc_transitive; [exact Hcl|exact Hreach]]]. apply sends_before.
Qed.

Lemma call_reaches_crash pre r post oc w xs : prep_err = None -> log_err = None ->
  run_top skip e o disk (log_run text).1 = (pre ++ r :: post, oc, w) -> crash_after cache0 0 pre r xs ->
  exists m p wm n cs, before_done m /\ quiet n cs /\ rtc step code_call (cfg m p (WCrash wm) FLoop (ULoop (concat xs)) cs).
Proof.
  intros Hp Hl Hrun Hrf. unfold run_top in Hrun.
  assert (Hstart : rtc step code_call (cfg (MLoop None) (PSend (log_run text).1 (log_run text).2) (WLoop cache0 0) FLoop (ULoop []) ∅)).
  { unfold code_call. comm 0 3; [set_solver|]. replace (match prep_err with Some x => MCloseRes2 (Err x) None | None => MStartW end) with MStartW by (by rewrite Hp).
    comm 0 2; [set_solver|]. replace (match log_err with Some x => MCloseGit (Err x) None | None => MStartP end) with MStartP by (by rewrite Hl). comm 0 1; [set_solver|]. apply rtc_refl. }
  clear Hp Hl. set (po := (log_run text).2) in *. destruct (log_run text).1 as [|c cs].
  - exfalso. injection Hrun as E _ _. by destruct pre.
  - assert (Hq0 : quiet 0 (∅ : gset chan)) by (intros x Hx; by apply elem_of_empty in Hx).
    destruct (init_checkpoints skip o disk) as [r0|m|m] eqn:Ei; [|exfalso; injection Hrun as E _ _; by destruct pre..].
    assert (Hout : s_out (process_log e (pst_init r0) (c :: cs)).1 = s_out (pst_init r0) ++ pre ++ r :: post).
    { destruct (process_log e (pst_init r0) (c :: cs)) as [s' [[]|m|m]]; cbn [fst snd] in *; [destruct (decide (s_last s' = []))| |]; injection Hrun as <- _ _; done. }
    destruct (run_crash None (c :: cs) po (pst_init r0) pre r post cache0 0 [] ∅ xs) as (m & p & wm & n & cl1 & HL & Hq & HR);
      [right; rewrite Ei; split; [done|split; done]|exact Hq0|set_solver|exact Hout|exact Hrf|].
    exists m, p, wm, n, cl1. split; [done|]. split; [done|]. eapply rtc_transitive; [exact Hstart|exact HR].
Qed.

(** ** What happens afterwards *)
Definition open_end (cs : gset chan) : Prop := c_res ∉ cs /\ c_res2 ∉ cs.
Lemma commit_before x c : before_done (on_commit skip e o disk write_err x c).
Proof. unfold on_commit. destruct (match x with Some s => _ | None => _ end); [apply sends_before|done..]. Qed.
Lemma end_before x : before_done (on_end e write_err x).
Proof. unfold on_end. destruct x as [s|]; [|done]. destruct (decide _); [apply (sends_before [] (NWrite s))|apply sends_before]. Qed.
Lemma after_crash_step m p wm got cs c' : closable cs -> open_end cs -> before_done m -> step (cfg m p (WCrash wm) FLoop (ULoop got) cs) c' ->
  exists m' p' cs', c' = cfg m' p' (WCrash wm) FLoop (ULoop got) cs' /\ closable cs' /\ open_end cs' /\ before_done m'.
Proof.
  intros Hcl [Ho1 Ho2] Hm Hs.
  destruct (shape_step zt cl count meta orders cache0 skip e o disk text prep_err log_err write_err _ _ _ _ _ _ _ Hcl Hs) as (m' & p' & w' & f' & u' & cs' & E & Hcl' & _).
  assert (G : exists m1 p1 cs1, c' = cfg m1 p1 (WCrash wm) FLoop (ULoop got) cs1 /\ open_end cs1 /\ before_done m1).
  { clear E Hcl'. unfold cfg in Hs.
    inversion Hs as [ls cl' i j l l' c v k kr Hi Ai Hj Aj Hc|ls cl' j l c kr Hj Aj Hc|ls cl' i l c k Hi Ai Hc]; subst.
    - destruct i as [|[|[|[|[|i]]]]]; try discriminate Hi; injection Hi as <-; cbn [Pipeline.act] in Ai; try discriminate Ai.
      + destruct m; try done; cbn [m_act] in Ai; try discriminate Ai; injection Ai as <- <- <-.
        destruct j as [|[|[|[|[|j]]]]]; try discriminate Hj; injection Hj as <-; cbn [Pipeline.act] in Aj; try discriminate Aj.
        destruct p as [|[|c1 cs1] po|po| |]; cbn in Aj; discriminate Aj.
      + destruct p as [|[|c1 cs1] po|po| |]; cbn [p_act start_act] in Ai; try discriminate Ai; injection Ai as <- <- <-;
          (destruct j as [|[|[|[|[|j]]]]]; try discriminate Hj; injection Hj as <-; cbn [Pipeline.act] in Aj; try discriminate Aj;
           destruct m; try done; cbn in Aj; try discriminate Aj; injection Aj as <-).
        * eexists _, _, _. split; [reflexivity|]. split; [done|]. apply commit_before.
        * eexists _, _, _. split; [reflexivity|]. split; [done|]. done.
        * eexists _, _, _. split; [reflexivity|]. split; [done|]. done.
    - destruct j as [|[|[|[|[|j]]]]]; try discriminate Hj; injection Hj as <-; cbn [Pipeline.act] in Aj; try discriminate Aj.
      + destruct m; try done; cbn in Aj; try discriminate Aj; injection Aj as <- <-.
        * eexists _, _, _. split; [reflexivity|]. split; [done|]. apply end_before.
        * eexists _, _, _. split; [reflexivity|]. split; [done|]. done.
        * exfalso. apply Hcl in Hc. rewrite ?elem_of_cons, elem_of_nil in Hc. cbn in Hc. lia.
        * exfalso. apply Hcl in Hc. rewrite ?elem_of_cons, elem_of_nil in Hc. cbn in Hc. lia.
      + destruct p as [|[|c1 cs1] po|po| |]; cbn in Aj; try discriminate Aj; injection Aj as <- <-. exfalso. apply Hcl in Hc. rewrite ?elem_of_cons, elem_of_nil in Hc. cbn in Hc. lia.
      + cbn in Aj. injection Aj as <- <-. done.
      + cbn in Aj. injection Aj as <- <-. done.
    - destruct i as [|[|[|[|[|i]]]]]; try discriminate Hi; injection Hi as <-; cbn [Pipeline.act] in Ai; try discriminate Ai.
      + destruct m; try done; cbn in Ai; try discriminate Ai; injection Ai as <- <-.
        eexists _, _, _. split; [reflexivity|]. split; [|done]. split; rewrite elem_of_union, elem_of_singleton; (intros [Ex|Ex]; [discriminate Ex|done]).
      + destruct p as [|[|c1 cs1] po|po| |]; cbn in Ai; try discriminate Ai; injection Ai as <- <-.
        eexists _, _, _. split; [reflexivity|]. split; [|done]. split; rewrite elem_of_union, elem_of_singleton; (intros [Ex|Ex]; [discriminate Ex|done]). }
  destruct G as (m1 & p1 & cs1 & -> & Ho & Hb). injection E as <- <- <- <- <- <-. exists m1, p1, cs1. done.
Qed.
Lemma after_crash m p wm got cs c' : closable cs -> open_end cs -> before_done m -> rtc step (cfg m p (WCrash wm) FLoop (ULoop got) cs) c' ->
  exists m' p' cs', c' = cfg m' p' (WCrash wm) FLoop (ULoop got) cs' /\ open_end cs' /\ before_done m'.
Proof.
  intros H1 H2 H3 Hs. remember (cfg m p (WCrash wm) FLoop (ULoop got) cs) as c eqn:E. revert m p cs H1 H2 H3 E. induction Hs as [c|c c1 c' Hc _ IH]; intros m p cs H1 H2 H3 ->.
  - by exists m, p, cs.
  - destruct (after_crash_step _ _ _ _ _ _ H1 H2 H3 Hc) as (m1 & p1 & cs1 & -> & G1 & G2 & G3). by apply (IH m1 p1 cs1).
Qed.

Lemma schedule_of_worker_panic pre r post oc w xs : prep_err = None -> log_err = None ->
  run_top skip e o disk (log_run text).1 = (pre ++ r :: post, oc, w) -> records_for cache0 0 pre xs -> (forall xs', ~ records_for cache0 0 (pre ++ [r]) xs') ->
  forall c, rtc step code_call c ->
    received c `prefix_of` concat xs /\ c_res ∉ closed c /\ returned c = None /\ (final act c -> received c = concat xs /\ crashing act c).
Proof.
  intros Hp Hl Hrun Hrf Hno c Hc. pose proof (no_records_crash _ _ _ _ _ Hrf Hno) as Hcr.
  destruct (call_reaches_crash pre r post oc w xs Hp Hl Hrun Hcr) as (m & p & wm & n & cs & Hb & Hq & Hreach).
  destruct (confluent act owns reads gives (pipe_disciplined _ _ _ _ _ _ _ _ _ _ _ _ _ _) _ _ _ (call_exclusive (T := T) (L := L)) Hreach Hc) as (d & Hgd & Hcd).
  assert (Hcl : closable cs) by (intros x Hx; apply Hq in Hx as [->|(j & _ & ->)]; apply (bool_decide_unpack _); vm_compute; exact I).
  destruct (after_crash m p wm (concat xs) cs d Hcl) as (m' & p' & cs' & -> & [Ho _] & Hb'); [by split; eapply quiet_other|done|done|].
  destruct (call_shape zt cl count meta orders cache0 skip e o disk text prep_err log_err write_err c Hc) as (m1 & p1 & w1 & f1 & u1 & cs1 & -> & Hcl1 & _).
  destruct (shape_steps zt cl count meta orders cache0 skip e o disk text prep_err log_err write_err _ _ _ _ _ _ _ Hcl1 Hcd) as (m2 & p2 & w2 & f2 & u2 & cs2 & E & _ & M).
  injection E as <- <- <- <- <- <-.
  assert (Er : forall m p w f u cs, received (cfg (T := T) (L := L) m p w f u cs) = PipelineMore.got u) by (intros ? ? ? ? [] ?; done).
  split; [rewrite Er; exact (mo_got _ _ _ _ _ _ _ _ M)|]. split; [intros Hx; apply Ho; by apply (mo_sub _ _ _ _ _ _ _ _ M)|]. split.
  - unfold returned. cbn [locals cfg lookup list_lookup]. destruct m1 as [| | | | | | | | | | | |oc1 w0|]; try done. exfalso.
    pose proof (stop_stays act _ _ 0 (LM (MStop oc1 w0)) Hcd eq_refl eq_refl) as Hx. cbn in Hx. injection Hx as ->. done.
  - intros Hf. inversion Hcd as [|? y ? Hs]; subst; [|exfalso; by eapply Hf]. split; [done|]. exists (LW (WCrash wm)). split; [|done]. do 2 right. left.
Qed.

(** The main goroutine panics: the call does not return. *)
Lemma panic_no_return out m w xs : prep_err = None -> log_err = None ->
  run_top skip e o disk (log_run text).1 = (out, Panic m, w) -> records_for cache0 0 out xs ->
  forall c, rtc step code_call c -> returned c = None /\ (final act c -> crashing act c).
Proof.
  intros Hp Hl Hrun Hrf c Hc.
  destruct (call_reaches_end zt cl count meta orders cache0 skip e o disk text prep_err log_err write_err out (Panic m) w xs Hp Hl Hrun Hrf) as (f & Hf & Hend).
  pose proof (call_end_final zt cl count meta orders cache0 skip e o disk text prep_err log_err write_err _ _ _ _ _ Hend) as Hfin.
  destruct (reaches_end zt cl count meta orders cache0 skip e o disk text prep_err log_err write_err f Hf Hfin c Hc) as [Hcf Heq].
  destruct Hend as (p & ca & n & cs & _ & _ & ->). split.
  - destruct (call_shape zt cl count meta orders cache0 skip e o disk text prep_err log_err write_err c Hc) as (m1 & p1 & w1 & f1 & u1 & cs1 & -> & _ & _).
    unfold returned. cbn [locals cfg lookup list_lookup]. destruct m1 as [| | | | | | | | | | | |oc1 w0|]; try done. exfalso.
    pose proof (stop_stays act _ _ 0 (LM (MStop oc1 w0)) Hcf eq_refl eq_refl) as Hx. discriminate Hx.
  - intros Hfc. rewrite (Heq Hfc). exists (LM (MCrash m)). split; [left|done].
Qed.
End Pipe.

(** ** Every commit of the log has a result *)
Definition covered (s : pst) (h : bytes) : Prop := (exists r, r ∈ s_out s /\ r_commit r = h) \/ (s_mparts s <> ∅ /\ s_mcommit s = h).
Lemma regular_commit slow r ps c r' res : process_regular slow r ps c = Ret (r', res) -> r_commit res = lc_hash c.
Proof.
  unfold process_regular. destruct ps as [|p [|q ps]]; [| |done]; (destruct (ofold _ _ _) as [[r1 re]| |]; [|done..]); cbn [obind]; [intros [= _ <-]; done|].
  destruct (get_commit_must r1 p); [|done..]. cbn [obind]. intros [= _ <-]. done.
Qed.
Lemma merge_commit o r ps h parts r' res : process_merge o r ps h parts = Ret (r', res) -> r_commit res = h.
Proof.
  unfold process_merge. destruct (collect_diffs _ _); [|done..]. cbn [obind]. destruct (ofold (merge_step_file _ _ _) _ _); [|done..]. cbn [obind].
  destruct (parent_files _ _); [|done..]. cbn [obind]. destruct (ofold (merge_step_rest _ _) _ _); [|done..]. cbn [obind]. intros [= _ <-]. done.
Qed.
Lemma got_covers e s s' h : got_merge_parts e s = (s', Ret tt) -> covered s h -> exists r, r ∈ s_out s' /\ r_commit r = h.
Proof.
  unfold got_merge_parts. destruct (process_merge _ _ _ _ _) as [[q res]|m|m] eqn:E; [|done..]. intros [= <-] Hc. apply merge_commit in E. cbn [finish_commit s_out].
  destruct Hc as [(r & Hr & Er)|[_ Eh]]; [exists r; split; [apply elem_of_app; by left|done]|exists res; split; [apply elem_of_app; right; by apply elem_of_list_singleton|congruence]].
Qed.
Lemma new_covers e s c s' h : new_commit e s c = (s', Ret tt) -> (exists r, r ∈ s_out s /\ r_commit r = h) \/ lc_hash c = h -> covered s' h.
Proof.
  unfold new_commit. destruct (decide _).
  - intros [= <-] [Hr|Eh]; [by left|]. right. split; [apply insert_non_empty|done].
  - destruct (process_regular _ _ _ _) as [[q res]|m|m] eqn:E; [|done..]. intros [= <-] Hh. apply regular_commit in E. left. cbn [finish_commit s_out].
    destruct Hh as [(r & Hr & Er)|Eh]; [exists r; split; [apply elem_of_app; by left|done]|exists res; split; [apply elem_of_app; right; by apply elem_of_list_singleton|congruence]].
Qed.
Lemma commit_covers e s c s' h : process_commit e s c = (s', Ret tt) -> covered s h \/ lc_hash c = h -> covered s' h.
Proof.
  unfold process_commit. destruct (decide _) as [He|He].
  - intros E [[Hr|[Hn _]]|Hh]; [eapply new_covers; [exact E|by left]|done|eapply new_covers; [exact E|by right]].
  - case_bool_decide as Hb.
    + intros [= <-] Hh. destruct Hh as [[Hr|[_ Eh]]|Eh]; [by left|right..]; (split; [apply insert_non_empty|]); cbn; congruence.
    + destruct (got_merge_parts e s) as [s1 [[]|m|m]] eqn:Eg; [|done..]. intros E Hh. eapply new_covers; [exact E|]. destruct Hh as [Hh|Hh]; [left; by eapply got_covers|by right].
Qed.
Lemma commits_cover e cs h : forall s s', process_commits e s cs = (s', Ret tt) -> covered s h \/ (exists c, c ∈ cs /\ lc_hash c = h) -> covered s' h.
Proof.
  induction cs as [|c cs IH]; intros s s' E Hh; cbn [process_commits] in E.
  - injection E as <-. destruct Hh as [?|(c & Hc & _)]; [done|by apply elem_of_nil in Hc].
  - destruct (process_commit e s c) as [s1 [[]|m|m]] eqn:E1; [|done..]. apply (IH s1 s' E). destruct Hh as [Hh|(d & Hd & Ed)]; [left; eapply commit_covers; [exact E1|by left]|].
    apply elem_of_cons in Hd as [->|Hd]; [left; eapply commit_covers; [exact E1|by right]|right; by exists d].
Qed.
Lemma log_covers e s s' cs c : process_log e s cs = (s', Ret tt) -> c ∈ cs -> exists r, r ∈ s_out s' /\ r_commit r = lc_hash c.
Proof.
  intros E Hc. unfold process_log in E. destruct (process_commits e s cs) as [s1 [[]|m|m]] eqn:E1; [|done..].
  pose proof (commits_cover e cs (lc_hash c) s s1 E1 (or_intror (ex_intro _ c (conj Hc eq_refl)))) as Hcov. destruct (decide _) as [He|He].
  - injection E as <-. destruct Hcov as [?|[? _]]; done.
  - by eapply got_covers.
Qed.
