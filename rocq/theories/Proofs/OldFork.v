(** * Commits whose parent the state does not have cannot be processed *)
From Verif.Model Require Import Base GoStrings IncBlame LogParser ParentsGraph Process Msgp Checkpoint.
From Verif.Spec Require Import Text UnifiedDiff Attribution GitLog CommitGraph History Processing Checkpoint Resuming.
From Verif.Proofs Require Import CheckpointProofs CheckpointFiles ProcessRegular ResumeTop.
From Coq Require Import Lia.

Lemma regular_other slow r ps c r' res x : process_regular slow r ps c = Ret (r', res) -> x <> lc_hash c -> r' !! x = r !! x.
Proof.
  intros E Hx. unfold process_regular in E. destruct ps as [|p [|q ps]]; [| |done].
  - destruct (ofold _ _ _) as [[r1 re]| |] eqn:Ef; [|done..]. cbn [obind] in E. injection E as <- _.
    change r1 with ((r1, re).1). rewrite (changes_other slow (lc_hash c) [] x (lc_changes c) Hx _ _ Ef). cbn. unfold add_commit. by rewrite lookup_insert_ne.
  - destruct (ofold _ _ _) as [[r1 re]| |] eqn:Ef; [|done..]. cbn [obind] in E. destruct (get_commit_must r1 p) as [fs| |]; [|done..]. cbn [obind] in E. injection E as <- _.
    unfold copy_unchanged. rewrite lookup_insert_ne by done.
    change r1 with ((r1, re).1). rewrite (changes_other slow (lc_hash c) [p] x (lc_changes c) Hx _ _ Ef). cbn. unfold add_commit. by rewrite lookup_insert_ne.
Qed.
Lemma file_other hash ps diffs x l : x <> hash -> forall st st', ofold (merge_step_file hash ps diffs) st l = Ret st' -> st'.1 !! x = st.1 !! x.
Proof.
  intros Hx. induction l as [|k l IH]; intros st st' E; [cbn in E; by injection E as <-|]. cbn [ofold] in E.
  destruct (merge_step_file hash ps diffs st k) as [st1| |] eqn:E1; [|done..]. cbn [obind] in E. rewrite (IH st1 st' E).
  destruct st as [r res]. unfold merge_step_file in E1. destruct (merge_file _ _ _ _ _) as [e| |]; [|done..]. cbn [obind] in E1. injection E1 as <-. cbn.
  destruct e.1; [by apply set_file_other|done].
Qed.
Lemma rest_other hash ps x l : x <> hash -> forall r r', ofold (merge_step_rest hash ps) r l = Ret r' -> r' !! x = r !! x.
Proof.
  intros Hx. induction l as [|k l IH]; intros r r' E; [cbn in E; by injection E as <-|]. cbn [ofold] in E.
  destruct (merge_step_rest hash ps r k) as [r1| |] eqn:E1; [|done..]. cbn [obind] in E. rewrite (IH r1 r' E).
  unfold merge_step_rest in E1. destruct (get_file_optional r hash k) as [[b|]| |]; [by injection E1 as <-| |done..]. cbn [obind] in E1.
  destruct (omapM _ _) as [os| |]; [|done..]. cbn [obind] in E1. destruct (last (omap id os)); [|done]. injection E1 as <-. by apply set_file_other.
Qed.
Lemma merge_other o r ps hash parts r' res x : process_merge o r ps hash parts = Ret (r', res) -> x <> hash -> r' !! x = r !! x.
Proof.
  intros E Hx. unfold process_merge in E. destruct (collect_diffs _ _) as [diffs| |]; [|done..]. cbn [obind] in E.
  destruct (ofold (merge_step_file _ _ _) _ _) as [y| |] eqn:E1; [|done..]. cbn [obind] in E. destruct (parent_files y.1 ps) as [fs| |]; [|done..]. cbn [obind] in E.
  destruct (ofold (merge_step_rest _ _) _ _) as [r2| |] eqn:E2; [|done..]. cbn [obind] in E. injection E as <- _.
  rewrite (rest_other _ _ _ _ Hx _ _ E2), (file_other _ _ _ _ _ Hx _ _ E1). cbn. unfold add_commit. by rewrite lookup_insert_ne.
Qed.
Lemma omapM_get_none (r : repo) p : r !! p = None -> forall ps fss, p ∈ ps -> omapM (get_commit_must r) ps <> Ret fss.
Proof.
  intros Hp. induction ps as [|q ps IH]; intros fss Hin E; [by apply elem_of_nil in Hin|]. cbn [omapM] in E.
  destruct (get_commit_must r q) as [fs| |] eqn:Eq; [|done..]. cbn [obind] in E. destruct (omapM (get_commit_must r) ps) as [fss'| |] eqn:E2; [|done..].
  apply elem_of_cons in Hin as [->|Hin]; [unfold get_commit_must in Eq; by rewrite Hp in Eq|]. by apply (IH fss' Hin).
Qed.
Lemma merge_unknown o r ps hash parts x p : r !! p = None -> p <> hash -> p ∈ ps -> process_merge o r ps hash parts <> Ret x.
Proof.
  intros Hp Hne Hin E. unfold process_merge in E. destruct (collect_diffs _ _) as [diffs| |]; [|done..]. cbn [obind] in E.
  destruct (ofold (merge_step_file _ _ _) _ _) as [y| |] eqn:E1; [|done..]. cbn [obind] in E. destruct (parent_files y.1 ps) as [fs| |] eqn:E2; [|done..].
  unfold parent_files in E2. destruct (omapM _ _) as [fss| |] eqn:E3; [|done..]. apply (omapM_get_none y.1 p) in E3; [done| |done].
  rewrite (file_other _ _ _ _ _ Hne _ _ E1). cbn. unfold add_commit. by rewrite lookup_insert_ne.
Qed.
Lemma trim_none ch ps x : forall st, st.2.2 !! x = None -> (trim ch ps st).2.2 !! x = None.
Proof.
  unfold trim. induction ps as [|p ps IH]; intros st Hx; [done|]. cbn [foldl]. apply IH. unfold trim_one. cbn [snd]. case_decide; [|done].
  unfold unload. case_decide; [|done]. cbn [snd]. destruct (last _) as [z|]; [|done]. destruct (decide (z = x)) as [->|Hne]; [by rewrite lookup_delete|by rewrite lookup_delete_ne].
Qed.

Section unknown.
Context (e : env) (p x : bytes) (Hpx : p ∈ env_parents e x) (Hne : x <> p).
(** [p] is not in the state and not being processed. *)
Definition unk (s : pst) : Prop := s_repo s !! p = None /\ (s_mparts s <> ∅ -> s_mcommit s <> p).
(** [x] is a merge being read. *)
Definition pending (s : pst) : Prop := unk s /\ s_mparts s <> ∅ /\ s_mcommit s = x.

Lemma finish_unk s c r res : r !! p = None -> unk (finish_commit e s c r res).
Proof. intros Hr. split; [by apply trim_none|]. cbn. done. Qed.
Lemma got_unk s s' : unk s -> s_mparts s <> ∅ -> got_merge_parts e s = (s', Ret tt) -> unk s' /\ s_mcommit s <> x.
Proof.
  intros [Hr Hm] Hne' E. unfold got_merge_parts in E. destruct (process_merge _ _ _ _ _) as [[r res]| |] eqn:Ep; [|done..]. injection E as <-. split.
  - apply finish_unk. erewrite merge_other by (exact Ep || (apply not_eq_sym; exact (Hm Hne'))). done.
  - intros Ex. rewrite Ex in Ep. revert Ep. apply (merge_unknown _ _ _ _ _ _ p); [done|done|done].
Qed.
Lemma new_unk s c s' : unk s -> lc_hash c <> p -> new_commit e s c = (s', Ret tt) -> unk s' /\ (lc_hash c = x -> pending s').
Proof.
  intros [Hr Hm] Hc E. unfold new_commit in E. case_decide as Hl.
  - injection E as <-. assert (Hn : {[lc_from c := c]} <> (∅ : gmap bytes lcommit)) by (apply insert_non_empty). split; [by split|]. intros Hx. split; [by split|]. split; [exact Hn|exact Hx].
  - destruct (process_regular _ _ _ _) as [[r res]| |] eqn:Ep; [|done..]. injection E as <-. split.
    + apply finish_unk. erewrite regular_other by (exact Ep || (by apply not_eq_sym)). done.
    + intros Hx. exfalso. rewrite Hx in *. destruct (env_parents e x) as [|q [|q' l]] eqn:El; [by apply elem_of_nil in Hpx| |cbn in Hl; lia].
      apply elem_of_list_singleton in Hpx as <-. revert Ep. apply regular_unknown; [done|by rewrite Hx].
Qed.
Lemma commit_unk s c s' : unk s -> lc_hash c <> p -> process_commit e s c = (s', Ret tt) -> unk s' /\ (lc_hash c = x -> pending s') /\ (pending s -> pending s').
Proof.
  intros Hu Hc E. unfold process_commit in E. case_decide as Hm.
  - destruct (new_unk s c s' Hu Hc E) as [H1 H2]. split; [done|]. split; [done|]. by intros (_ & ? & _).
  - case_bool_decide as Hb.
    + injection E as <-. assert (Hn : <[lc_from c := c]> (s_mparts s) <> ∅) by apply insert_non_empty. destruct Hu as [Hr Hmc].
      split; [split; [done|]; intros _; by apply Hmc|]. split; [intros Hx|intros (_ & _ & Hx)]; (split; [split; [done|]; intros _; by apply Hmc|]); (split; [exact Hn|]); cbn; congruence.
    + destruct (got_merge_parts e s) as [s1 [[]|m|m]] eqn:Eg; [|done..]. destruct (got_unk s s1 Hu Hm Eg) as [Hu1 Hnx].
      destruct (new_unk s1 c s' Hu1 Hc E) as [H1 H2]. split; [done|]. split; [done|]. by intros (_ & _ & ?).
Qed.
Lemma commits_unk cs : forall s s', unk s -> (forall c, c ∈ cs -> lc_hash c <> p) -> process_commits e s cs = (s', Ret tt) ->
  unk s' /\ ((exists c, c ∈ cs /\ lc_hash c = x) \/ pending s -> pending s').
Proof.
  induction cs as [|c cs IH]; intros s s' Hu Hc E; cbn [process_commits] in E.
  - injection E as <-. split; [done|]. intros [(c & Hin & _)|?]; [by apply elem_of_nil in Hin|done].
  - destruct (process_commit e s c) as [s1 [[]|m|m]] eqn:E1; [|done..]. destruct (commit_unk s c s1 Hu (Hc c (elem_of_list_here _ _)) E1) as (Hu1 & Hx & Hp).
    destruct (IH s1 s' Hu1 ltac:(intros d Hd; apply Hc; by right) E) as [H1 H2]. split; [done|]. intros [(d & Hd & Ed)|Hpe]; apply H2; [|right; by apply Hp].
    apply elem_of_cons in Hd as [->|Hd]; [right; by apply Hx|left; by exists d].
Qed.
Lemma log_unknown r cs s' : r !! p = None -> (forall c, c ∈ cs -> lc_hash c <> p) -> (exists c, c ∈ cs /\ lc_hash c = x) ->
  process_log e (pst_init r) cs <> (s', Ret tt).
Proof.
  intros Hr Hc Hx E. unfold process_log in E. destruct (process_commits e (pst_init r) cs) as [s1 [[]|m|m]] eqn:E1; [|done..].
  destruct (commits_unk cs (pst_init r) s1 ltac:(by split) Hc E1) as [Hu Hp]. destruct (Hp (or_introl Hx)) as (_ & Hm & Ex).
  rewrite decide_False in E by done. destruct (got_unk s1 s' Hu Hm E) as [_ ?]. done.
Qed.
End unknown.

Lemma saved_none hash skip P P' p : sound P -> encodable hash P -> saved_as hash skip P P' -> values P !! p = None -> values P' !! p = None.
Proof.
  intros Hs He (o1 & o2 & w & Ho1 & Ho2 & Hw & Hr) Hp. destruct (files_iso hash skip P o1 o2 Hs He Ho1 Ho2) as (w' & P'' & ob & ol & Hw' & Hr' & HI).
  rewrite Hw in Hw'. injection Hw' as <-. rewrite Hr in Hr'. injection Hr' as <-.
  unfold values in *. rewrite lookup_fmap in *. destruct (pr_files P' !! p) as [fs|] eqn:E; [|done]. exfalso.
  assert (is_Some (pr_files P' !! p)) as Hk by (rewrite E; by eexists). apply (iso_known _ _ _ _ _ HI) in Hk as (f & b & Hb).
  unfold blame_at in Hb. by destruct (pr_files P !! p).
Qed.
