(** * C38: resuming below an old commit *)
From Verif.Model Require Import Base GoStrings IncBlame LogParser ParentsGraph Process Msgp Checkpoint.
From Verif.Spec Require Import Text UnifiedDiff Attribution GitLog CommitGraph History Processing Checkpoint Resuming Selection.
From Verif.Proofs Require Import CheckpointProofs CheckpointFiles OldFork ChainExample TextLemmas LogParse GraphExamples ProcessExamples CheckpointExamples.
From Verif.Props Require Import ProcessProps.
From Coq Require Import Lia.

(** C38 is false for a branch that starts at an old commit: once a run has finished 1000 commits after [p] (all their children processed), no
    later run that starts from its checkpoint can process a commit [x] on top of [p]. *)
Theorem C38_old_fork_refuted hash skip k H1 slow e1 cs1 s1 P P' p l n H2 e2 cs2 x :
  run_given H1 slow k e1 [] cs1 -> process_log e1 (pst_init ∅) (map commit_of (git_log H1 cs1)) = (s1, Ret tt) ->
  values P = s_repo s1 -> sound P -> encodable hash P -> saved_as hash skip P P' ->
  finished H1 (take n cs1) p -> NoDup l -> 1000 <= length l -> (forall q, q ∈ l -> finished H1 cs1 q /\ ~ finished H1 (take n cs1) q) ->
  e_parents e2 = hi_parents H2 -> x ∈ cs2 -> p ∈ hparents H2 x -> p ∉ cs2 ->
  forall s2, process_log e2 (pst_init (values P')) (map commit_of (git_log H2 cs2)) <> (s2, Ret tt).
Proof.
  intros HG E1 HP Hs He Hsv Hp Hnd Hlen Hl He2 Hx Hpx Hp2 s2.
  assert (Hin : forall cs known c p, parents_first H1 known cs -> c ∈ cs -> p ∈ hparents H1 c -> p ∈ known \/ p ∈ cs).
  { induction cs as [|d cs IH]; intros kn c q Hpf Hc Hq; [by apply elem_of_nil in Hc|]. cbn in Hpf. destruct Hpf as (_ & Hpd & Hpf). apply elem_of_cons in Hc as [->|Hc].
    - left. by apply Hpd.
    - destruct (IH _ _ _ Hpf Hc Hq) as [Hk|?]; [|right; by right]. apply elem_of_cons in Hk as [->|?]; [right; by left|by left]. }
  assert (Hfin : forall q, finished H1 cs1 q -> q ∈ cs1).
  { intros q [[d Hd] Ha]. destruct (Hin cs1 [] d q (rg_order _ _ _ _ _ _ HG) (Ha d Hd) Hd) as [Hb|?]; [by apply elem_of_nil in Hb|done]. }
  assert (Hpf : finished H1 cs1 p).
  { destruct Hp as [Hd Ha]. split; [exact Hd|]. intros d Hd'. apply Ha in Hd'. apply elem_of_list_lookup in Hd' as [i Hi]. apply lookup_take_Some in Hi as [Hi _]. by eapply elem_of_list_lookup_2. }
  assert (HR : run_ready H1 slow k e1 [] ∅ cs1).
  { destruct HG as [A1 A2 A3 A4 A5 A6 A7]. split; try done. intros q Hq. by apply elem_of_nil in Hq. }
  destruct (C33_finished_bounded_partial k H1 slow e1 [] ∅ cs1 HR) as (s & kept & E & Hk & Hiff & Hord). rewrite E1 in E. injection E as <-.
  assert (Hno : s_repo s1 !! p = None).
  { destruct (s_repo s1 !! p) as [fs|] eqn:Er; [|done]. exfalso. assert (Hpk : p ∈ kept) by (apply (Hiff p); [right; by apply Hfin|done|rewrite Er; by eexists]).
    assert (Hsub : p :: l ⊆+ kept).
    { apply NoDup_submseteq.
      - apply NoDup_cons. split; [|done]. intros Hpl. by destruct (Hl p Hpl).
      - intros q Hq. apply elem_of_cons in Hq as [->|Hq]; [done|]. destruct (Hl q Hq) as [Hqf Hqn]. destruct (decide (q ∈ kept)) as [|Hnk]; [done|]. exfalso. apply Hqn. by apply (Hord q p n Hqf Hnk Hpk). }
    apply submseteq_length in Hsub. cbn in Hsub. lia. }
  assert (Hhash : forall c d, c ∈ map commit_of (entries_of H2 d) -> lc_hash c = d).
  { intros c d Hc. change (map commit_of (entries_of H2 d)) with (commit_of <$> entries_of H2 d) in Hc. apply elem_of_list_fmap in Hc as (y & -> & Hy). unfold entries_of in Hy.
    destruct (hparents H2 d) as [|q1 [|q2 ps]]; [apply elem_of_list_singleton in Hy as ->; done..|].
    destruct (filter _ _) as [|q3 qs]; [apply elem_of_list_singleton in Hy as ->; done|].
    match type of Hy with _ ∈ map ?f ?l => change (map f l) with (f <$> l) in Hy end. apply elem_of_list_fmap in Hy as (z & -> & _). done. }
  assert (Hlog : map commit_of (git_log H2 cs2) = concat (map (fun d => map commit_of (entries_of H2 d)) cs2)).
  { unfold git_log. induction cs2 as [|d r IH]; [done|]. cbn. rewrite map_app. f_equal. clear -r. induction r as [|d r IH]; [done|]. cbn. rewrite map_app. by f_equal. }
  assert (Hne : x <> p) by congruence.
  rewrite Hlog. apply (log_unknown e2 p x); [unfold env_parents; rewrite He2; exact Hpx|exact Hne| | |].
  - apply (saved_none hash skip P P' p Hs He Hsv). by rewrite HP.
  - intros c Hc Ec. apply elem_of_list_In, in_concat in Hc as (y & Hy & Hcy). apply in_map_iff in Hy as (d & <- & Hd). apply elem_of_list_In in Hd, Hcy. apply Hhash in Hcy. congruence.
  - destruct (map commit_of (entries_of H2 x)) as [|c r] eqn:Ex.
    + exfalso. unfold entries_of in Ex. destruct (hparents H2 x) as [|q1 [|q2 ps]]; [done..|]. by destruct (filter _ _).
    + exists c. split; [|apply Hhash; rewrite Ex; by left]. apply elem_of_list_In, in_concat. exists (c :: r). split; [|by left]. apply in_map_iff. exists x. split; [exact Ex|by apply elem_of_list_In].
Qed.
Print Assumptions C38_old_fork_refuted.

(** ** A chain of 1002 commits, and later a branch from the first one that is merged: all hypotheses hold, with the options of a real run *)
Definition fork_id : bytes := B "f0".
Definition merge_id : bytes := B "f1".
Definition forked : history := flat (<[ merge_id := [chain_id 1001; fork_id] ]> (<[ fork_id := [chain_id 0] ]> (chain_parents 1002))).
Definition chain_later : list bytes := chain_id <$> seq 1 1000.
Example C38_old_fork_hypotheses_hold : exists s P P',
  run_given (chain 1002) (ex_slow (chain 1002)) 3 (ex_env (chain 1002) id_orders) [] (chain_ids 1002) /\
  process_log (ex_env (chain 1002) id_orders) (pst_init ∅) (map commit_of (git_log (chain 1002) (chain_ids 1002))) = (s, Ret tt) /\
  values P = s_repo s /\ sound P /\ encodable ex_hash P /\ saved_as ex_hash no_skip P P' /\
  finished (chain 1002) (take 2 (chain_ids 1002)) (chain_id 0) /\ NoDup chain_later /\ 1000 <= length chain_later /\
  (forall q, q ∈ chain_later -> finished (chain 1002) (chain_ids 1002) q /\ ~ finished (chain 1002) (take 2 (chain_ids 1002)) q) /\
  hparents forked fork_id = [chain_id 0] /\ hparents forked merge_id = [chain_id 1001; fork_id] /\
  chain_id 0 ∉ [chain_id 1001; fork_id; merge_id] /\ extends (chain 1002) forked.
Proof.
  unfold chain_later, forked. assert (HN : (N.of_nat 1002 < 4294967296)%N) by lia.
  assert (Hk : exists m, m = 999) by (by eexists). destruct Hk as [m Hm].
  change 1000 with (S 999). change 1001 with (S (S 999)). change 1002 with (S (S (S 999))) in *. rewrite <-!Hm in *. clear Hm.
  destruct (chain_run (S (S (S m)))) as (s & Es & Hr). pose proof (chain_encodable (s_repo s) (chain_small _ _ Hr HN)) as He.
  destruct (chain_saved (s_repo s) He) as [P' HP']. exists s, (chain_prepo (s_repo s)), P'.
  assert (Htake : take 2 (chain_ids (S (S (S m)))) = chain_ids 2) by reflexivity. rewrite Htake.
  split; [apply chain_given|]. split; [exact Es|]. split; [exact (chain_values _ _ Hr)|]. split; [apply chain_sound|]. split; [exact He|]. split; [exact HP'|].
  split; [apply chain_finished; lia|]. split; [apply (NoDup_fmap_2 chain_id); apply NoDup_seq|]. split; [rewrite fmap_length, seq_length; lia|]. split.
  { intros q Hq. apply elem_of_list_fmap in Hq as (i & -> & Hi). apply elem_of_seq in Hi. split; [apply chain_finished; lia|]. rewrite chain_finished by lia. lia. }
  unfold hparents, parents, flat. cbn [hi_parents].
  split; [by rewrite lookup_insert_ne, lookup_insert|]. split; [by rewrite lookup_insert|]. split.
  { intros Hin. apply elem_of_cons in Hin as [E|Hin]; [apply (inj chain_id) in E; lia|]. apply elem_of_cons in Hin as [E|Hin]; [discriminate E|]. apply elem_of_list_singleton in Hin. discriminate Hin. }
  intros c Hc. split; [|done]. destruct Hc as [ps Hc]. cbn [chain flat hi_parents] in *. apply chain_lookup in Hc as (i & _ & -> & _).
  by rewrite !lookup_insert_ne.
Qed.
