(** * A run of the library's goroutines with any receiver of the commits *)
From Verif.Model Require Import Base GoStrings IncBlame LogParser ParentsGraph Process Msgp Checkpoint CheckpointFS CommitMeta FileInfo CodeInfo Net Pipeline Callers.
From Verif.Spec Require Import Delivery Callers.
From Verif.Proofs Require Import NetProofs PipelineProofs PipelineMore PipelineCrash.
From Coq Require Import Lia.

Section Sink.
Context {T L : Type} (zt : T) (cl : classifiers L).
Context (count : bytes -> bytes -> bytes -> list (Z * line_type) * totals) (meta : gmap bytes (mcommit T)).
Context (orders : nat -> list (bytes * blame) -> list (bytes * blame)) (cache0 : gmap bytes bytes).
Context (skip : bytes -> pres unit) (e : env) (o : popts) (disk : fs) (text : bytes) (prep_err log_err write_err : option bytes).
Notation record := (bresult T L).
Notation gotten := (list (mcommit T * list record)).
Notation clocal := (@clocal T L).
Notation commits_for := (commits_for zt cl count meta orders).
(** With the cache that is left. *)
Inductive goes : gmap bytes bytes -> nat -> list result -> gotten -> gmap bytes bytes -> Prop :=
| go_nil cache n : goes cache n [] [] cache
| go_cons cache n r rs c cache' x ys ca :
    meta !! r_commit r = Some c -> code_info_files zt cl count meta (orders n) cache r = Ret (cache', x) ->
    goes cache' (S n) rs ys ca -> goes cache n (r :: rs) ((c, x) :: ys) ca.
Lemma goes_iff cache n rs ys : commits_for cache n rs ys <-> exists ca, goes cache n rs ys ca.
Proof.
  split.
  - induction 1 as [cache n|cache n r rs c cache' x ys Hc Hx _ [ca IH]]; [exists cache; constructor|exists ca; by econstructor].
  - intros [ca H]. induction H; [constructor|by econstructor].
Qed.
Lemma goes_app cache n rs rest ys : commits_for cache n (rs ++ rest) ys ->
  exists ys1 ys2 ca, ys = ys1 ++ ys2 /\ length ys1 = length rs /\ goes cache n rs ys1 ca /\ commits_for ca (n + length rs) rest ys2.
Proof.
  revert cache n ys. induction rs as [|r rs IH]; intros cache n ys H.
  - exists [], ys, cache. rewrite Nat.add_0_r. split; [done|]. split; [done|]. split; [constructor|done].
  - inversion H as [|? ? ? ? c cache' x ys' Hc Hx Hrest]; subst. destruct (IH _ _ _ Hrest) as (ys1 & ys2 & ca & -> & El & H1 & H2).
    exists ((c, x) :: ys1), ys2, ca. split; [done|]. split; [cbn; lia|]. split; [by econstructor|]. cbn [length]. by replace (n + S (length rs)) with (S n + length rs) by lia.
Qed.
Notation m_act := (m_act (T := T) (L := L) skip e o disk prep_err log_err write_err).
Notation p_act := (p_act (T := T) (L := L) text).
Notation w_act := (w_act zt cl count meta orders cache0).
Notation on_result := (on_result zt cl count meta orders).

(** The goroutines [tl g] receive; [g] is what they have received.  [ok g c x]: they receive the records [x] of the next commit [c]. *)
Context (act' : clocal -> action chan (@value T L) clocal).
Notation step := (step act').
Context (HM : forall m, (forall oc w, m <> MCloseRes2 oc w) -> act' (BL (LM m)) = lift_act (m_act m)).
Context (HP : forall p, act' (BL (LP p)) = lift_act (p_act p)).
Context (HW : forall w, act' (BL (LW w)) = lift_act (w_act w)).
Context (tl : gotten -> list clocal) (ok : gotten -> mcommit T -> list record -> Prop).
Definition scfg (m : mstate) (p : pstate) (w : wstate) (g : gotten) (cs : gset chan) : config chan clocal :=
  Config (BL (LM m) :: BL (LP p) :: BL (LW w) :: tl g) cs.
Definition delivers : Prop := forall m p c x ca g cs, quiet (length g) cs -> ok g c x ->
  rtc step (scfg m p (WRes c (length g) x ca) g cs) (scfg m p (WLoop ca (S (length g))) (g ++ [(c, x)]) ({[ c_blames (length g) ]} ∪ cs)).
Definition all_ok (g ys : gotten) : Prop := forall pre c x post, ys = pre ++ (c, x) :: post -> ok (g ++ pre) c x.
Context (HD : delivers).

Lemma all_ok_cons g c x ys : all_ok g ((c, x) :: ys) -> ok g c x /\ all_ok (g ++ [(c, x)]) ys.
Proof.
  intros H. split; [rewrite <- (app_nil_r g); by apply (H [] c x ys)|]. intros pre c' x' post ->. rewrite <- app_assoc. by apply (H ((c, x) :: pre) c' x' post).
Qed.

(** ** Single steps *)
Ltac two i j := refine (step_comm act' _ _ i j _ _ _ _ _ _ _ _ _ _ _); [reflexivity| |reflexivity| |].
Lemma s_commit m k c cs po w g cl0 : c_commits ∉ cl0 -> m_act m = Recv c_commits k -> (forall oc w, m <> MCloseRes2 oc w) ->
  step (scfg m (PSend (c :: cs) po) w g cl0) (Config (BL (k (Some (VCommit c))) :: BL (LP (PSend cs po)) :: BL (LW w) :: tl g) cl0).
Proof. intros Hc Hm Hn. unfold scfg. two 1 0; [by rewrite HP|by rewrite HM, Hm|done]. Qed.
Lemma s_close m po w g cl0 : c_commits ∉ cl0 -> step (scfg m (PSend [] po) w g cl0) (scfg m (PDone po) w g ({[ c_commits ]} ∪ cl0)).
Proof. intros Hc. unfold scfg. refine (step_close act' _ _ 1 _ _ _ _ _ _); [reflexivity|by rewrite HP|done]. Qed.
Lemma s_end m k p w g cl0 : c_commits ∈ cl0 -> m_act m = Recv c_commits k -> (forall oc w, m <> MCloseRes2 oc w) ->
  step (scfg m p w g cl0) (Config (BL (k None) :: BL (LP p) :: BL (LW w) :: tl g) cl0).
Proof. intros Hc Hm Hn. unfold scfg. refine (step_eof act' _ _ 0 _ _ _ _ _ _); [reflexivity|by rewrite HM, Hm|done]. Qed.
Lemma s_result r rs nx p ca n g cl0 : c_gitres ∉ cl0 ->
  step (scfg (MSend r rs nx) p (WLoop ca n) g cl0) (scfg (send_all write_err rs nx) p (on_result ca n r) g cl0).
Proof. intros Hc. unfold scfg. two 0 2; [by rewrite HM|by rewrite HW|done]. Qed.

(** ** Results *)
Lemma send_commits p nx rs rest cache g cs ys ce : quiet (length g) cs -> goes cache (length g) (rs ++ rest) ys ce -> all_ok g ys ->
  exists ys1 ys2 cache' cs', ys = ys1 ++ ys2 /\ quiet (length (g ++ ys1)) cs' /\ (c_commits ∈ cs <-> c_commits ∈ cs') /\
    goes cache' (length (g ++ ys1)) rest ys2 ce /\ all_ok (g ++ ys1) ys2 /\
    rtc step (scfg (send_all write_err rs nx) p (WLoop cache (length g)) g cs)
             (scfg (after_sends write_err nx) p (WLoop cache' (length (g ++ ys1))) (g ++ ys1) cs').
Proof.
  revert cache g cs ys. induction rs as [|r rs IH]; intros cache g cs ys Hq Hrf Hok.
  - exists [], ys, cache, cs. rewrite app_nil_r. split; [done|]. split; [done|]. split; [done|]. split; [done|]. split; [done|apply rtc_refl].
  - inversion Hrf as [|? ? ? ? c cache' x ys' ? Hc Hx Hrest]; subst. apply all_ok_cons in Hok as [Hok1 Hok2].
    assert (El : length (g ++ [(c, x)]) = S (length g)) by (rewrite app_length; cbn; lia).
    destruct (IH cache' (g ++ [(c, x)]) ({[ c_blames (length g) ]} ∪ cs) ys') as (ys1 & ys2 & ca & cs' & -> & Hq' & Hcm & Hr' & Hok' & Hreach);
      [rewrite El; by apply quiet_add|by rewrite El|done|].
    exists ((c, x) :: ys1), ys2, ca, cs'. rewrite <- app_assoc in *. cbn [app] in *. split; [done|]. split; [done|]. split; [rewrite <- Hcm; set_solver|]. split; [done|]. split; [done|].
    cbn [send_all]. eapply rtc_l; [apply s_result; by eapply quiet_other|].
    assert (Hon : on_result cache (length g) r = WRes c (length g) x cache') by (unfold Pipeline.on_result; by rewrite Hc, Hx). rewrite Hon.
    eapply rtc_transitive; [by apply HD|]. rewrite El in Hreach. exact Hreach.
Qed.
Lemma send_until p nx pre r post cache g cs ys ca : quiet (length g) cs -> goes cache (length g) pre ys ca -> all_ok g ys ->
  exists cs', quiet (length (g ++ ys)) cs' /\
    rtc step (scfg (send_all write_err (pre ++ r :: post) nx) p (WLoop cache (length g)) g cs)
             (scfg (send_all write_err post nx) p (on_result ca (length (g ++ ys)) r) (g ++ ys) cs').
Proof.
  revert cache g cs ys. induction pre as [|a pre IH]; intros cache g cs ys Hq Hrf Hok; inversion Hrf as [|? ? ? ? c cache' x ys' ? Hc Hx Hrest]; subst.
  - exists cs. rewrite app_nil_r. split; [done|]. cbn [app send_all]. eapply rtc_l; [apply s_result; by eapply quiet_other|apply rtc_refl].
  - apply all_ok_cons in Hok as [Hok1 Hok2].
    assert (El : length (g ++ [(c, x)]) = S (length g)) by (rewrite app_length; cbn; lia).
    destruct (IH cache' (g ++ [(c, x)]) ({[ c_blames (length g) ]} ∪ cs) ys') as (cs' & Hq' & Hreach);
      [rewrite El; by apply quiet_add|by rewrite El|done|].
    exists cs'. rewrite <- app_assoc in *. cbn [app] in *. split; [done|].
    cbn [send_all]. eapply rtc_l; [apply s_result; by eapply quiet_other|].
    assert (Hon : on_result cache (length g) a = WRes c (length g) x cache') by (unfold Pipeline.on_result; by rewrite Hc, Hx). rewrite Hon.
    eapply rtc_transitive; [by apply HD|]. rewrite El in Hreach. exact Hreach.
Qed.

(** ** The log *)
Lemma drain_sink m cs po w g cl0 n : quiet n cl0 -> c_commits ∉ cl0 ->
  exists cl1, quiet n cl1 /\ rtc step (scfg (MDrain m) (PSend cs po) w g cl0) (scfg (MWait (Err m) None) (PDone po) w g cl1).
Proof.
  intros Hq Hc. exists ({[ c_commits ]} ∪ cl0). split; [by apply quiet_commits|]. induction cs as [|c cs IH].
  - eapply rtc_l; [by apply s_close|]. eapply rtc_l; [eapply s_end; [set_solver|reflexivity|done]|apply rtc_refl].
  - eapply rtc_l; [eapply s_commit; [done|reflexivity|done]|]. exact IH.
Qed.
Lemma crash_sink m cs po w g cl0 n : quiet n cl0 -> c_commits ∉ cl0 ->
  exists p cl1, p_stuck p /\ quiet n cl1 /\ rtc step (scfg (MCrash m) (PSend cs po) w g cl0) (scfg (MCrash m) p w g cl1).
Proof.
  intros Hq Hc. destruct cs as [|c cs].
  - exists (PDone po), ({[ c_commits ]} ∪ cl0). split; [right; by exists po|]. split; [by apply quiet_commits|]. eapply rtc_l; [by apply s_close|apply rtc_refl].
  - exists (PSend (c :: cs) po), cl0. split; [left; by exists c, cs, po|]. split; [done|apply rtc_refl].
Qed.
Lemma first_end x po w g cl0 : c_commits ∉ cl0 ->
  rtc step (scfg (MLoop x) (PSend [] po) w g cl0) (scfg (on_end e write_err x) (PDone po) w g ({[ c_commits ]} ∪ cl0)).
Proof. intros Hc. eapply rtc_l; [by apply s_close|]. eapply rtc_l; [eapply s_end; [set_solver|reflexivity|done]|apply rtc_refl]. Qed.
Lemma first_commit x c cs po w g cl0 : c_commits ∉ cl0 ->
  rtc step (scfg (MLoop x) (PSend (c :: cs) po) w g cl0) (scfg (on_commit skip e o disk write_err x c) (PSend cs po) w g cl0).
Proof. intros Hc. eapply rtc_l; [eapply s_commit; [done|reflexivity|done]|apply rtc_refl]. Qed.

Lemma run_sink x cs po s rs cache g cl0 ys ce :
  at_state skip o disk x s cs -> quiet (length g) cl0 -> c_commits ∉ cl0 -> s_out (process_log e s cs).1 = s_out s ++ rs -> goes cache (length g) rs ys ce -> all_ok g ys ->
  exists p cache' cl1, loop_ends write_err (process_log e s cs) p po /\ quiet (length (g ++ ys)) cl1 /\
    rtc step (scfg (MLoop x) (PSend cs po) (WLoop cache (length g)) g cl0)
             (scfg (log_end write_err (process_log e s cs)) p (WLoop cache' (length (g ++ ys))) (g ++ ys) cl1).
Proof.
  revert x s rs cache g cl0 ys ce. induction cs as [|c cs IH]; intros x s rs cache g cl0 ys ce Hat Hq Hc Hout Hrf Hok.
  - destruct Hat as [->|(_ & Hn & _)]; [|done]. pose proof (first_end (Some s) po (WLoop cache (length g)) g cl0 Hc) as Hcl.
    apply quiet_commits in Hq. unfold process_log in *. cbn [process_commits] in *. unfold on_end in Hcl.
    destruct (decide (s_mparts s = ∅)) as [He|He].
    + cbn [fst] in Hout. rewrite <- (app_nil_r (s_out s)) in Hout at 1. apply app_inv_head in Hout as <-. inversion Hrf; subst.
      exists (PDone po), ce, ({[ c_commits ]} ∪ cl0). rewrite app_nil_r. split; [|split; [done|exact Hcl]].
      unfold loop_ends. destruct (log_end _ _); try reflexivity. right. by exists po.
    + destruct (got_merge_parts e s) as [s' oc] eqn:Eg. pose proof Eg as Eg0. cbn [fst snd] in *. apply got_merge_out in Eg as [rs' E']. rewrite E' in Hout. apply app_inv_head in Hout as ->.
      rewrite (new_results_app _ _ _ E') in Hcl. rewrite <- (app_nil_r rs) in Hrf.
      destruct (send_commits (PDone po) (match oc with Ret _ => NWrite s' | Err m | Panic m => NCrash m end) rs [] cache g _ ys ce Hq Hrf Hok)
        as (xs1 & xs2 & ca & cs' & -> & Hq' & _ & Hr' & _ & Hreach). inversion Hr'; subst. rewrite app_nil_r.
      destruct oc as [[]|m|m].
      * eexists (PDone po), _, cs'. split; [unfold loop_ends; destruct (log_end _ _); try reflexivity; right; by exists po|]. split; [done|].
        eapply rtc_transitive; [exact Hcl|exact Hreach].
      * exfalso. by eapply got_merge_no_err.
      * eexists (PDone po), _, cs'. split; [unfold loop_ends; destruct (log_end _ _); try reflexivity; right; by exists po|]. split; [done|].
        eapply rtc_transitive; [exact Hcl|exact Hreach].
  - pose proof (first_commit x c cs po (WLoop cache (length g)) g cl0 Hc) as Hcl. rewrite (at_commit skip e o disk write_err x s _ c Hat) in Hcl.
    unfold on_commit in Hcl. unfold process_log in *. cbn [process_commits] in *.
    destruct (process_commit e s c) as [s' oc] eqn:Ec. cbn [fst snd] in Hcl. apply process_commit_out in Ec as [r1 E1]. rewrite (new_results_app _ _ _ E1) in Hcl.
    assert (exists r2, rs = r1 ++ r2 /\ match oc with
      | Ret _ => s_out (process_log e s' cs).1 = s_out s' ++ r2 | _ => r2 = [] end) as (r2 & -> & Hr2).
    { destruct oc as [[]|m|m]; cbn [fst] in Hout.
      - assert (exists r2, s_out (process_log e s' cs).1 = s_out s' ++ r2) as [r2 E2] by apply process_log_out.
        exists r2. unfold process_log in E2. rewrite E2, E1, <- app_assoc in Hout. apply app_inv_head in Hout as <-. split; [done|]. unfold process_log. exact E2.
      - exists []. rewrite E1 in Hout. apply app_inv_head in Hout as <-. by rewrite app_nil_r.
      - exists []. rewrite E1 in Hout. apply app_inv_head in Hout as <-. by rewrite app_nil_r. }
    destruct (send_commits (PSend cs po) (match oc with Ret _ => NLoop s' | Err m => NDrain m | Panic m => NCrash m end) r1 r2 cache g cl0 ys ce Hq Hrf Hok)
      as (xs1 & xs2 & ca & cs' & -> & Hq' & Hcm & Hr' & Hok' & Hreach).
    assert (Hc' : c_commits ∉ cs') by (by rewrite <- Hcm).
    destruct oc as [[]|m|m]; cbn [after_sends] in Hreach.
    + destruct (IH (Some s') s' r2 ca (g ++ xs1) cs' xs2 ce (or_introl eq_refl) Hq' Hc' Hr2 Hr' Hok') as (p & ca' & cl1 & HL & Hq1 & HR).
      exists p, ca', cl1. rewrite <- app_assoc in HR, Hq1. split; [exact HL|]. split; [done|].
      eapply rtc_transitive; [exact Hcl|]. eapply rtc_transitive; [exact Hreach|exact HR].
    + subst r2. inversion Hr'; subst. rewrite app_nil_r.
      destruct (drain_sink m cs po (WLoop ce (length (g ++ xs1))) (g ++ xs1) cs' _ Hq' Hc') as (cl1 & Hq1 & HDr).
      eexists (PDone po), _, cl1. split; [reflexivity|]. split; [done|]. eapply rtc_transitive; [exact Hcl|]. eapply rtc_transitive; [exact Hreach|exact HDr].
    + subst r2. inversion Hr'; subst. rewrite app_nil_r.
      destruct (crash_sink m cs po (WLoop ce (length (g ++ xs1))) (g ++ xs1) cs' _ Hq' Hc') as (p & cl1 & Hp & Hq1 & HDr).
      eexists p, _, cl1. split; [exact Hp|]. split; [done|]. eapply rtc_transitive; [exact Hcl|]. eapply rtc_transitive; [exact Hreach|exact HDr].
Qed.

(** Until the worker gets the result [r]. *)
Lemma run_until x cs po s pre r post cache g cl0 ys ca :
  at_state skip o disk x s cs -> quiet (length g) cl0 -> c_commits ∉ cl0 -> s_out (process_log e s cs).1 = s_out s ++ pre ++ r :: post -> goes cache (length g) pre ys ca -> all_ok g ys ->
  exists m p cl1, before_done m /\ quiet (length (g ++ ys)) cl1 /\
    rtc step (scfg (MLoop x) (PSend cs po) (WLoop cache (length g)) g cl0) (scfg m p (on_result ca (length (g ++ ys)) r) (g ++ ys) cl1).
Proof.
  revert x s pre cache g cl0 ys ca. induction cs as [|c cs IH]; intros x s pre cache g cl0 ys ca Hat Hq Hc Hout Hrf Hok.
  - destruct Hat as [->|(_ & Hn & _)]; [|done]. pose proof (first_end (Some s) po (WLoop cache (length g)) g cl0 Hc) as Hcl.
    apply quiet_commits in Hq. unfold process_log in *. cbn [process_commits] in *. unfold on_end in Hcl.
    destruct (decide (s_mparts s = ∅)) as [He|He].
    + exfalso. cbn [fst] in Hout. rewrite <- (app_nil_r (s_out s)) in Hout at 1. apply app_inv_head in Hout. by destruct pre.
    + destruct (got_merge_parts e s) as [s' oc] eqn:Eg. cbn [fst snd] in *. pose proof Eg as Eg0. apply got_merge_out in Eg as [rs' E']. rewrite E' in Hout. apply app_inv_head in Hout as ->.
      rewrite (new_results_app _ _ _ E') in Hcl.
      destruct (send_until (PDone po) (match oc with Ret _ => NWrite s' | Err m | Panic m => NCrash m end) pre r post cache g _ ys ca Hq Hrf Hok) as (cs' & Hq' & Hreach).
      eexists _, _, cs'. split; [|split; [exact Hq'|eapply rtc_transitive; [exact Hcl|exact Hreach]]]. apply sends_before.
  - pose proof (first_commit x c cs po (WLoop cache (length g)) g cl0 Hc) as Hcl. rewrite (at_commit skip e o disk write_err x s _ c Hat) in Hcl.
    unfold on_commit in Hcl. unfold process_log in *. cbn [process_commits] in *.
    destruct (process_commit e s c) as [s' oc] eqn:Ec. cbn [fst snd] in Hcl. apply process_commit_out in Ec as [r1 E1]. rewrite (new_results_app _ _ _ E1) in Hcl.
    assert (exists r2, pre ++ r :: post = r1 ++ r2 /\ match oc with
      | Ret _ => s_out (process_log e s' cs).1 = s_out s' ++ r2 | _ => r2 = [] end) as (r2 & Er & Hr2).
    { destruct oc as [[]|m|m]; cbn [fst] in Hout.
      - assert (exists r2, s_out (process_log e s' cs).1 = s_out s' ++ r2) as [r2 E2] by apply process_log_out.
        exists r2. unfold process_log in E2. rewrite E2, E1, <- app_assoc in Hout. apply app_inv_head in Hout as <-. split; [done|]. unfold process_log. exact E2.
      - exists []. rewrite E1 in Hout. apply app_inv_head in Hout as <-. by rewrite app_nil_r.
      - exists []. rewrite E1 in Hout. apply app_inv_head in Hout as <-. by rewrite app_nil_r. }
    symmetry in Er. apply app_split in Er as [(pre2 & -> & ->)|(post1 & -> & ->)].
    + destruct (send_commits (PSend cs po) (match oc with Ret _ => NLoop s' | Err m => NDrain m | Panic m => NCrash m end) r1 pre2 cache g cl0 ys ca Hq Hrf Hok)
        as (xs1 & xs2 & ca1 & cs' & -> & Hq' & Hcm & Hr' & Hok' & Hreach).
      assert (Hc' : c_commits ∉ cs') by (by rewrite <- Hcm).
      destruct oc as [[]|m|m]; cbn [after_sends] in Hreach; [|by destruct pre2..].
      destruct (IH (Some s') s' pre2 ca1 (g ++ xs1) cs' xs2 ca (or_introl eq_refl) Hq' Hc' Hr2 Hr' Hok') as (m & p & cl1 & HL & Hq1 & HR).
      exists m, p, cl1. rewrite <- app_assoc in HR, Hq1. split; [exact HL|]. split; [done|].
      eapply rtc_transitive; [exact Hcl|]. eapply rtc_transitive; [exact Hreach|exact HR].
    + destruct (send_until (PSend cs po) (match oc with Ret _ => NLoop s' | Err m => NDrain m | Panic m => NCrash m end) pre r post1 cache g cl0 ys ca Hq Hrf Hok) as (cs' & Hq' & Hreach).
      eexists _, _, cs'. split; [|split; [exact Hq'|eapply rtc_transitive; [exact Hcl|exact Hreach]]]. apply sends_before.
Qed.
End Sink.
