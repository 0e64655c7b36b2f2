(** * The goroutines of commitmeta: proofs for C98 *)
From Verif.Model Require Import Base MetaRun.
From Verif.Spec Require Import LeftBehind.
From Coq Require Import Lia.

Section MetaRun.
Context {V A : Type} (put : A -> V -> A) (a0 : A) (started : bool) (es : list (event V)) (n0 : nat).
Notation step := (mstep put a0 started es).
Notation got := (fold_left put (commits_of es) a0).
Notation mrun := (@mrun V A).
(** What has been collected and what is still to come make up the whole. *)
Definition inv (c : mrun) : Prop :=
  (started = true \/ m_drains c = n0) /\
  match m_caller c, m_coll c with
  | Start, Idle => m_jobs c = 0 /\ m_drains c = n0
  | Begin, Collecting a => m_jobs c = 0 /\ m_drains c = n0 /\ a = a0
  | Sending l, Collecting a => started = true /\ m_drains c = S n0 /\ fold_left put (commits_of l) a = got
  | Waiting, Collecting a | Waiting, Collected a | Returned a, Gone =>
      (started = true /\ m_drains c = S n0 /\ a = got) \/ (started = false /\ m_drains c = n0 /\ a = a0 /\ m_jobs c = 0)
  | _, _ => False
  end.
Lemma inv_start : inv (meta_call n0).
Proof. split; [by right|]. done. Qed.
Lemma inv_step c c' : inv c -> step c c' -> inv c'.
Proof.
  intros [H1 H2] Hs. destruct Hs; unfold inv in *; cbn [m_caller m_coll m_jobs m_drains] in *.
  - destruct H2 as [_ ->]. split; [by right|done].
  - destruct H2 as (_ & -> & ->). split; [by left|done].
  - destruct H2 as (_ & -> & ->). split; [by right|]. by right.
  - split; [done|]. destruct k; done.
  - split; [done|]. destruct c, k; first [exact H2|by destruct H2 as [? ?]|by (destruct H2 as [H2|(_ & _ & _ & ?)]; [left|])].
  - split; [done|]. exact H2.
  - split; [done|]. destruct k; try done. left. destruct H2 as (? & ? & ?). done.
  - done.
  - done.
Qed.
Lemma inv_all c : rtc step (meta_call n0) c -> inv c.
Proof.
  intros Hc. assert (H : forall x, rtc step x c -> inv x -> inv c) by (clear Hc; induction 1 as [|x y z Hxy _ IH]; [done|]; intros Hi; apply IH; by eapply inv_step).
  by apply (H (meta_call n0)), inv_start.
Qed.
(** Every step makes this smaller. *)
Definition left_to_do (c : mrun) : nat :=
  (match m_caller c with Start => 5 + 3 * length es | Begin => 4 + 3 * length es | Sending l => 3 + 3 * length l | Waiting => 2 | Returned _ => 0 end) +
  (match m_coll c with Idle | Collecting _ => 1 | _ => 0 end) + m_jobs c.
Lemma step_less c c' : step c c' -> left_to_do c' < left_to_do c.
Proof. intros []; unfold left_to_do; cbn [m_caller m_coll m_jobs m_drains length]; lia. Qed.
Lemma steps_bounded m c : nsteps step m (meta_call n0) c -> m <= left_to_do (meta_call n0).
Proof.
  assert (H : forall x, nsteps step m x c -> m <= left_to_do x).
  { revert c. induction m as [|m IH]; intros c x Hx; [lia|]. inversion Hx as [|? ? y ? Hs Hr]; subst. apply step_less in Hs. apply IH in Hr. lia. }
  apply H.
Qed.
(** A state in which nothing can happen. *)
Lemma rest_returned c : inv c -> at_rest step c ->
  (exists a, m_caller c = Returned a) /\ m_coll c = Gone /\ m_jobs c = 0.
Proof.
  intros [H1 H2] Hr. destruct c as [c k j n]. cbn [m_caller m_coll m_jobs m_drains] in *. unfold at_rest in Hr. destruct c as [| |l| |a].
  - destruct k; try done. destruct H2 as [-> ->]. exfalso. eapply Hr. apply ms_go.
  - destruct k; try done. destruct H2 as (-> & -> & ->). exfalso. destruct started eqn:E; eapply Hr; [by apply ms_begin|by apply ms_no_log].
  - destruct k; try done. destruct H2 as (_ & -> & _). exfalso. destruct j as [|j]; [|eapply Hr; apply ms_drain; lia].
    destruct l as [|[|v] l]; eapply Hr; [apply ms_close|apply ms_file; unfold room; lia|apply ms_commit].
  - exfalso. destruct k; try done; eapply Hr; [apply ms_closed|apply ms_done].
  - destruct k; try done. split; [by eexists|]. split; [done|]. destruct H2 as [(_ & -> & _)|(_ & _ & _ & ->)]; [|done].
    destruct j as [|j]; [done|]. exfalso. eapply Hr. apply ms_drain. lia.
Qed.
Lemma returned_all c a : inv c -> m_caller c = Returned a -> a = (if started then got else a0) /\ m_drains c = (if started then S n0 else n0) /\ m_coll c = Gone.
Proof.
  intros [H1 H2] E. rewrite E in H2. destruct (m_coll c); try done. destruct H2 as [(-> & ? & ?)|(-> & ? & ? & _)]; done.
Qed.
(** A run to the end exists. *)
Lemma step_or_rest (c : mrun) : inv c -> (exists c', step c c') \/ at_rest step c.
Proof.
  intros [H1 H2]. destruct c as [c k j n]. cbn [m_caller m_coll m_jobs m_drains] in *. destruct c as [| |l| |a].
  - destruct k; try done. destruct H2 as [-> ->]. left. eexists. apply ms_go.
  - destruct k; try done. destruct H2 as (-> & -> & ->). left. destruct started eqn:E; eexists; [by apply ms_begin|by apply ms_no_log].
  - destruct k; try done. destruct H2 as (_ & -> & _). left. destruct j as [|j]; [|eexists; apply ms_drain; lia].
    destruct l as [|[|v] l]; eexists; [apply ms_close|apply ms_file; unfold room; lia|apply ms_commit].
  - left. destruct k; try done; eexists; [apply ms_closed|apply ms_done].
  - destruct k; try done. destruct j as [|j]; [right; intros c' Hs; inversion Hs|]. destruct H2 as [(_ & -> & _)|(_ & _ & _ & E)]; [|discriminate E].
    left. eexists. apply ms_drain. lia.
Qed.
Lemma ends : exists c, rtc step (meta_call n0) c /\ at_rest step c.
Proof.
  assert (H : forall k c, left_to_do c <= k -> inv c -> exists c', rtc step c c' /\ at_rest step c').
  { induction k as [|k IH]; intros c Hk Hi; (destruct (step_or_rest c Hi) as [[c' Hc]|Hr]; [|exists c; split; [apply rtc_refl|done]]).
    - apply step_less in Hc. lia.
    - destruct (IH c') as (d & Hd & Hr); [apply step_less in Hc; lia|by eapply inv_step|]. exists d. split; [by eapply rtc_l|done]. }
  apply (H (left_to_do (meta_call n0))); [done|apply inv_start].
Qed.
End MetaRun.

Lemma calls_left {V A} (put : A -> V -> A) a0 ks n : calls put a0 ks n -> n = length (filter (fun k => k.1 = true) ks).
Proof.
  induction 1 as [|ks started es n c _ IH Hc Hr]; [done|]. rewrite filter_app, app_length, <- IH.
  pose proof (inv_all _ _ _ _ _ _ Hc) as Hi. destruct (rest_returned _ _ _ _ _ _ Hi Hr) as ([a Ha] & Hk & _). destruct (returned_all _ _ _ _ _ _ _ Hi Ha) as (_ & Hd & _).
  unfold running. rewrite Hk, Hd. destruct started; [rewrite filter_cons_True by done|rewrite filter_cons_False by done]; rewrite filter_nil; cbn [length]; lia.
Qed.
Lemma calls_exist {V A} (put : A -> V -> A) a0 ks : exists n, calls put a0 ks n.
Proof.
  induction ks as [|[s es] ks [n IH]] using rev_ind; [exists 0; constructor|].
  destruct (ends put a0 s es n) as (c & Hc & Hr). eexists. eapply calls_more; [exact IH|exact Hc|exact Hr].
Qed.
