(** * C98: goroutines left behind *)
From Verif.Model Require Import Base MetaRun.
From Verif.Spec Require Import LeftBehind.
From Verif.Proofs Require Import MetaRunProofs.

Section Props.
Context {V A : Type} (put : A -> V -> A) (a0 : A).

(** False of every call of RunSlice or RunMap whose log starts: when nothing can happen any more, the goroutine that reads filejobs is still waiting, whatever
    was sent and whatever the schedule; every further call adds one. *)
Theorem C98_goroutine_left_refuted es n c :
  rtc (mstep put a0 true es) (meta_call n) c -> at_rest (mstep put a0 true es) c -> running c = S n.
Proof.
  intros Hc Hr. pose proof (inv_all _ _ _ _ _ _ Hc) as Hi. destruct (rest_returned _ _ _ _ _ _ Hi Hr) as ([a Ha] & Hk & _).
  destruct (returned_all _ _ _ _ _ _ _ Hi Ha) as (_ & Hd & _). unfold running. by rewrite Hk, Hd.
Qed.
(** After any series of calls there are as many goroutines as calls whose log started. *)
Theorem C98_one_per_call_refuted ks : (exists n, calls put a0 ks n) /\ forall n, calls put a0 ks n -> n = length (filter (fun k => k.1 = true) ks).
Proof. split; [apply calls_exist|apply calls_left]. Qed.

(** That goroutine is the only one, and apart from it the call is right under every schedule: it ends after a bounded number of steps, however many files the log
    lists (filejobs has room for 100); what is returned is made of all the commits sent, in order; nothing is left in the channel. *)
Theorem C98_only_that_partial started es n :
  (exists k, forall m c, nsteps (mstep put a0 started es) m (meta_call n) c -> m <= k) /\
  (exists c, rtc (mstep put a0 started es) (meta_call n) c /\ at_rest (mstep put a0 started es) c) /\
  forall c, rtc (mstep put a0 started es) (meta_call n) c ->
    (forall a, m_caller c = Returned a -> a = (if started then fold_left put (commits_of es) a0 else a0) /\ running c = if started then S n else n) /\
    (at_rest (mstep put a0 started es) c -> (exists a, m_caller c = Returned a) /\ m_jobs c = 0).
Proof.
  split; [eexists; intros m c; apply steps_bounded|]. split; [apply ends|]. intros c Hc. pose proof (inv_all _ _ _ _ _ _ Hc) as Hi. split.
  - intros a Ha. destruct (returned_all _ _ _ _ _ _ _ Hi Ha) as (H1 & H2 & H3). split; [done|]. unfold running. by rewrite H3, H2.
  - intros Hr. destruct (rest_returned _ _ _ _ _ _ Hi Hr) as (H1 & _ & H2). done.
Qed.
End Props.
Print Assumptions C98_goroutine_left_refuted.
Print Assumptions C98_one_per_call_refuted.
Print Assumptions C98_only_that_partial.

(** Three calls; the log of the second does not start: two goroutines are left. *)
Example C98_hypotheses_hold :
  calls (fun l x => l ++ [x]) ([] : list nat) [(true, [File; File; Commit 1; File; Commit 2]); (false, []); (true, replicate 300 File ++ [Commit 7])] 2.
Proof.
  destruct (C98_one_per_call_refuted (fun l x => l ++ [x]) ([] : list nat) [(true, [File; File; Commit 1; File; Commit 2]); (false, []); (true, replicate 300 File ++ [Commit 7])]) as [[n Hn] Hu].
  pose proof (Hu n Hn) as ->. exact Hn.
Qed.
Print Assumptions C98_hypotheses_hold.
