(** * Two calls on one repository: proofs for C73 *)
From Verif.Model Require Import Base GoStrings IncBlame LogParser ParentsGraph Process Msgp Checkpoint CheckpointFS CommitMeta FileInfo CodeInfo Net Pipeline.
From Verif.Spec Require Import Text UnifiedDiff GitLog History Processing Records Delivery Repeat.
From Verif.Proofs Require Import MergeOrder NetProofs PipelineProofs PipelineMore PipelineCrash RecordProofs RecordMore EndToEndRun.
From Coq Require Import Lia.

Section Process.
Context (e1 e2 : env) (Hsame : same_but_orders e1 e2).
Lemma env_parents_same c : env_parents e2 c = env_parents e1 c.
Proof. unfold env_parents. by destruct Hsame as (-> & _). Qed.
Lemma finish_same s c r res : finish_commit e2 s c r res = finish_commit e1 s c r res.
Proof. unfold finish_commit. rewrite env_parents_same. by destruct Hsame as (_ & -> & _). Qed.
Lemma new_commit_same s c : new_commit e2 s c = new_commit e1 s c.
Proof.
  unfold new_commit. rewrite env_parents_same. destruct Hsame as (_ & _ & -> & _). destruct (decide _); [done|].
  destruct (process_regular _ _ _ _) as [[r res]| |]; [|done..]. by rewrite finish_same.
Qed.

Context (cs : list lcommit) (Hst : steady_merges e1 cs).
(** The parts of an unfinished merge. *)
Definition parts_ok (s : pst) : Prop :=
  forall par lc, s_mparts s !! par = Some lc -> lc ∈ cs /\ lc_hash lc = s_mcommit s /\ lc_from lc = par /\ 1 < length (env_parents e1 (s_mcommit s)).
Lemma got_same s s' : parts_ok s -> s_mparts s <> ∅ -> got_merge_parts e1 s = (s', Ret tt) -> got_merge_parts e2 s = (s', Ret tt).
Proof.
  intros Hok Hne. unfold got_merge_parts. rewrite env_parents_same.
  destruct (process_merge (e_orders e1 _) _ _ _ _) as [[r res]| |] eqn:E; [|done..].
  assert (Hm : exists par lc, s_mparts s !! par = Some lc) by (by apply map_choose). destruct Hm as (par0 & lc0 & Hl0).
  destruct (Hok _ _ Hl0) as (Hin0 & Hh0 & _ & Hlen). destruct (Hst lc0 Hin0) as (Hn & Hni & _ & _); [by rewrite Hh0|]. rewrite Hh0 in Hn, Hni.
  destruct Hsame as (_ & _ & _ & Ho1 & Ho2).
  rewrite (merge_order _ (e_orders e2 (s_mcommit s)) _ _ _ _ (r, res) (Ho1 (s_mcommit s)) (Ho2 _) Hn Hni); [by rewrite finish_same| | |exact E].
  - intros par lc Hl Hc. destruct (Hok _ _ Hl) as (Hin & Hh & Hf & _). destruct (Hst lc Hin) as (_ & _ & Hp & _); [by rewrite Hh|].
    rewrite Hh, Hf in Hp. by apply Hp.
  - intros d d' (par & lc & ch & A1 & A2 & A3) (par' & lc' & ch' & B1 & B2 & B3).
    destruct (Hok _ _ A1) as (Hin & Hh & Hf & _). destruct (Hok _ _ B1) as (Hin' & Hh' & _).
    destruct (Hst lc Hin) as (_ & _ & _ & Hc); [by rewrite Hh|]. apply (Hc lc' ch d ch' d'); [done|by rewrite Hh, Hh'|done..].
Qed.
Lemma new_commit_ok s c s' : c ∈ cs -> s_mparts s = ∅ -> new_commit e1 s c = (s', Ret tt) -> parts_ok s'.
Proof.
  intros Hc Hm. unfold new_commit. destruct (decide _) as [Hl|].
  - intros [= <-] par lc. cbn [s_mparts s_mcommit]. intros [<- <-]%lookup_singleton_Some. done.
  - destruct (process_regular _ _ _ _) as [[r res]| |]; [|done..]. intros [= <-] par lc. unfold finish_commit. cbn [s_mparts]. by rewrite lookup_empty.
Qed.
Lemma commit_same s c s' : c ∈ cs -> parts_ok s -> process_commit e1 s c = (s', Ret tt) -> process_commit e2 s c = (s', Ret tt) /\ parts_ok s'.
Proof.
  intros Hc Hok. unfold process_commit. destruct (decide _) as [Hm|Hm].
  { rewrite new_commit_same. intros E. split; [exact E|]. by eapply new_commit_ok. }
  destruct (bool_decide _) eqn:Eb.
  - apply bool_decide_eq_true in Eb. intros [= <-]. split; [done|]. intros par lc. cbn [s_mparts s_mcommit].
    destruct (map_choose _ Hm) as (par0 & lc0 & Hl0). destruct (Hok _ _ Hl0) as (_ & _ & _ & Hlen).
    intros [[<- <-]|[_ Hl]]%lookup_insert_Some; [done|by apply Hok].
  - destruct (got_merge_parts e1 s) as [s1 [[]|m|m]] eqn:Eg; [|done..]. rewrite (got_same s s1 Hok Hm Eg). rewrite new_commit_same.
    intros E. split; [exact E|]. eapply new_commit_ok; [done| |exact E]. unfold got_merge_parts in Eg.
    destruct (process_merge _ _ _ _ _) as [[r res]| |]; [|done..]. by injection Eg as <-.
Qed.
Lemma commits_same l : (forall c, c ∈ l -> c ∈ cs) -> forall s s', parts_ok s -> process_commits e1 s l = (s', Ret tt) -> process_commits e2 s l = (s', Ret tt) /\ parts_ok s'.
Proof.
  induction l as [|c l IH]; intros Hl s s' Hok; cbn [process_commits]; [by intros [= <-]|].
  destruct (process_commit e1 s c) as [s1 [[]|m|m]] eqn:E1; [|done..].
  destruct (commit_same s c s1) as [-> Hok1]; [apply Hl; by left|done..|]. apply IH; [|done]. intros c' Hc'. apply Hl. by right.
Qed.
Lemma log_same s : parts_ok s -> forall s', process_log e1 s cs = (s', Ret tt) -> process_log e2 s cs = (s', Ret tt).
Proof.
  intros Hok s'. unfold process_log. destruct (process_commits e1 s cs) as [s1 [[]|m|m]] eqn:E1; [|done..].
  destruct (commits_same cs ltac:(done) s s1 Hok E1) as [-> Hok1]. destruct (decide _) as [|Hm]; [done|]. by apply got_same.
Qed.
Lemma run_top_same skip o disk out w : run_top skip e1 o disk cs = (out, Ret tt, w) -> run_top skip e2 o disk cs = (out, Ret tt, w).
Proof.
  unfold run_top. destruct cs as [|c0 l] eqn:El; [done|]. rewrite <- El in *. destruct (init_checkpoints skip o disk) as [r| |]; [|done..].
  destruct (process_log e1 (pst_init r) cs) as [s [[]|m|m]] eqn:E; [|done..]. rewrite (log_same (pst_init r)) with (s' := s); [done| |exact E].
  intros par lc. cbn [pst_init s_mparts]. by rewrite lookup_empty.
Qed.
End Process.

Section Records.
Context {T L : Type} (zt : T) (cl : classifiers L).
Context (count : bytes -> bytes -> bytes -> list (Z * line_type) * totals) (meta : gmap bytes (mcommit T)).
Context (orders1 orders2 : nat -> list (bytes * blame) -> list (bytes * blame)) (Ho1 : forall n, any_perm (orders1 n)) (Ho2 : forall n, any_perm (orders2 n)).
Lemma records_same out : forall cache1 cache2 n xs1, used_cache cl cache1 -> used_cache cl cache2 ->
  records_for zt cl count meta orders1 cache1 n out xs1 ->
  exists xs2, records_for zt cl count meta orders2 cache2 n out xs2 /\
    Forall2 (fun x1 x2 => x1 ≡ₚ x2 /\ exists c, forall r, r ∈ x1 -> br_commit r = c) xs1 xs2.
Proof.
  induction out as [|r out IH]; intros cache1 cache2 n xs1 H1 H2 Hx; inversion Hx as [|? ? ? ? cache' x xs Hm Hc Hr]; subst; [exists []; by split; constructor|].
  destruct (order_irrelevant zt cl count meta (orders1 n) (orders2 n) cache1 cache2 r (Ho1 n) (Ho2 n) H1 H2 _ _ Hc) as (c2 & rs2 & Hc2 & Hp).
  destruct (IH cache' c2 (S n) xs) as (xs2 & Hx2 & HF); [exact (files_used zt cl count meta _ _ _ _ _ H1 Hc)|exact (files_used zt cl count meta _ _ _ _ _ H2 Hc2)|exact Hr|].
  exists (rs2 :: xs2). split; [by econstructor|]. constructor; [|exact HF]. split; [exact Hp|].
  destruct Hm as [commit Hm]. destruct (one_record_per_file zt cl count meta (orders1 n) cache1 r commit cache' x (Ho1 n) H1 Hm Hc) as (_ & _ & Hall).
  exists commit. intros q Hq. by apply Hall.
Qed.
End Records.

Section Call.
Context {T L : Type} (zt : T) (cl : classifiers L).
Context (count : bytes -> bytes -> bytes -> list (Z * line_type) * totals) (meta : gmap bytes (mcommit T)).
Context (orders : nat -> list (bytes * blame) -> list (bytes * blame)) (cache0 : gmap bytes bytes).
Context (skip : bytes -> pres unit) (e : env) (o : popts) (disk : fs) (text : bytes) (write_err : option bytes).
Notation act := (act zt cl count meta orders cache0 skip e o disk text None None write_err).
Notation records_for := (records_for zt cl count meta orders cache0 0).
(** If a call returned nil, Run had processed the whole log and all records could be made. *)
Lemma returned_nil c w : (log_run text).2 = Ret tt -> rtc (step act) (code_call (T := T) (L := L)) c -> returned c = Some (Ret tt, w) ->
  exists out xs, run_top skip e o disk (log_run text).1 = (out, Ret tt, w) /\ records_for out xs /\ (w = None \/ write_err = None).
Proof.
  intros Hpo Hc Hret. destruct (run_top skip e o disk (log_run text).1) as [[out oc] w'] eqn:Hrun.
  destruct (records_or_crash zt cl count meta orders out cache0 0) as [[xs Hxs]|(pre & r & post & xs & -> & H1 & H2)].
  2:{ edestruct (schedule_of_worker_panic zt cl count meta orders cache0 skip e o disk text None None write_err) as (_ & _ & E & _); [reflexivity|reflexivity|exact Hrun|exact H1|exact H2|exact Hc|]. by rewrite E in Hret. }
  destruct (call_reaches_end zt cl count meta orders cache0 skip e o disk text None None write_err out oc w' xs eq_refl eq_refl Hrun Hxs) as (f & Hf' & Hend).
  pose proof (call_end_final zt cl count meta orders cache0 skip e o disk text None None write_err _ _ _ _ _ Hend) as Hfin.
  destruct (reaches_end zt cl count meta orders cache0 skip e o disk text None None write_err f Hf' Hfin c Hc) as [Hkf _].
  assert (Hrf : returned f = Some (Ret tt, w)).
  { unfold returned in Hret |- *. destruct (locals c !! 0) as [[[]| | | | |]|] eqn:E0; try done. injection Hret as -> ->.
    by rewrite (stop_stays _ _ _ 0 (LM (MStop (Ret tt) w)) Hkf eq_refl E0). }
  destruct oc as [[]|m|m].
  - destruct (every_schedule zt cl count meta orders cache0 skip e o disk text None None write_err out (Ret tt) w' xs eq_refl eq_refl Hpo Hrun ltac:(done) Hxs) as [_ Hall].
    destruct (Hall f Hf') as (_ & _ & _ & Hff). destruct (Hff Hfin) as (_ & _ & _ & E). rewrite E in Hrf. injection Hrf as Ew <-.
    exists out, xs. split; [done|]. split; [done|]. destruct w'; [|by left]. destruct write_err; [done|by right].
  - destruct (every_schedule zt cl count meta orders cache0 skip e o disk text None None write_err out (Err m) w' xs eq_refl eq_refl Hpo Hrun ltac:(done) Hxs) as [_ Hall].
    destruct (Hall f Hf') as (_ & _ & _ & Hff). destruct (Hff Hfin) as (_ & _ & _ & E). rewrite E in Hrf. destruct w', write_err; done.
  - destruct (panic_no_return zt cl count meta orders cache0 skip e o disk text None None write_err out m w' xs eq_refl eq_refl Hrun Hxs c Hc) as [E _]. by rewrite E in Hret.
Qed.
End Call.
