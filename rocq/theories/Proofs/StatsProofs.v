(** * Statistics: proofs for C99 *)
From Verif.Model Require Import Base GoStrings IncBlame LogParser ParentsGraph Process Timing Msgp Checkpoint CheckpointFS CommitMeta FileInfo CodeInfo Net Pipeline Stats.
From Verif.Spec Require Import Processing Delivery Statistics.
From Verif.Proofs Require Import TimingProofs.
From Coq Require Import Lia.

Lemma total_snoc l x : total (l ++ [x]) = (total l + x)%Z.
Proof. unfold total. induction l as [|y l IH]; cbn [app foldr]; lia. Qed.
Lemma filter_both {A} (P : A -> Prop) `{forall x, Decision (P x)} (l : list A) : length (filter P l) + length (filter (fun x => ~ P x) l) = length l.
Proof. induction l as [|x l IH]; [done|]. rewrite !filter_cons. destruct (decide (P x)), (decide (~ P x)); cbn [length] in *; [done|lia|lia|done]. Qed.
Lemma measured_of parents done t : tells_about parents done t -> measured t = length done.
Proof. intros (H1 & _ & H2 & _). unfold measured. rewrite H1, H2. rewrite <- (filter_both (fun x : bytes * Z => 1 < length (parents x.1)) done). lia. Qed.

Section Run.
Context (srt : list timed -> list timed) (dur : nat -> Z) (e : env) (Hs : sorts_desc srt).
Notation parents := (env_parents e).

Lemma tells_merge done t c : tells_about parents done t -> 1 < length (parents c) ->
  tells_about parents (done ++ [(c, dur (length done))]) (time_merge srt dur t c).
Proof.
  intros H Hc. pose proof (measured_of _ _ _ H) as Hm. destruct H as (H1 & H2 & H3 & H4 & H5). unfold tells_about, time_merge. cbn [tm_merges tm_merges_time tm_regular tm_regular_time tm_slowest].
  rewrite Hm, !filter_app. rewrite (filter_cons_True _ (c, _)) by exact Hc. rewrite (filter_cons_False _ (c, _)) by (cbn [fst]; tauto). rewrite !filter_nil, app_nil_r, !map_app, app_length. cbn [map length snd fst].
  rewrite total_snoc. split; [lia|]. split; [congruence|]. split; [done|]. split; [done|]. by apply slowest_step.
Qed.
Lemma tells_regular done t c : tells_about parents done t -> ~ 1 < length (parents c) ->
  tells_about parents (done ++ [(c, dur (length done))]) (time_regular srt dur t c).
Proof.
  intros H Hc. pose proof (measured_of _ _ _ H) as Hm. destruct H as (H1 & H2 & H3 & H4 & H5). unfold tells_about, time_regular. cbn [tm_merges tm_merges_time tm_regular tm_regular_time tm_slowest].
  rewrite Hm, !filter_app. rewrite (filter_cons_False _ (c, _)) by exact Hc. rewrite (filter_cons_True _ (c, _)) by exact Hc. rewrite !filter_nil, app_nil_r, !map_app, app_length. cbn [map length snd fst].
  rewrite total_snoc. split; [done|]. split; [done|]. split; [lia|]. split; [congruence|]. by apply slowest_step.
Qed.

(** What has been measured belongs to what has been sent. *)
Definition inv (s : pst) (t : timing) : Prop :=
  tells_about parents (zip (map r_commit (s_out s)) (map dur (seq 0 (length (s_out s))))) t /\ (s_mparts s <> ∅ -> 1 < length (parents (s_mcommit s))).
Lemma zip_snoc (out : list result) r : zip (map r_commit (out ++ [r])) (map dur (seq 0 (length (out ++ [r])))) =
  zip (map r_commit out) (map dur (seq 0 (length out))) ++ [(r_commit r, dur (length out))].
Proof. rewrite app_length. cbn [length]. rewrite Nat.add_1_r, seq_S, !map_app. cbn [map Nat.add]. rewrite zip_with_app; [done|]. by rewrite !map_length, seq_length. Qed.
Lemma zip_len (out : list result) : length (zip (map r_commit out) (map dur (seq 0 (length out)))) = length out.
Proof. rewrite zip_with_length, !map_length, seq_length. lia. Qed.
Lemma regular_commit slow r ps c r' res : process_regular slow r ps c = Ret (r', res) -> r_commit res = lc_hash c.
Proof.
  unfold process_regular. destruct ps as [|p [|? ?]]; [| |done]; destruct (ofold _ _ _) as [[r1 f]|?|?]; try done; cbn [obind].
  - by intros [= <- <-].
  - destruct (get_commit_must r1 p); try done. by intros [= <- <-].
Qed.
Lemma merge_commit o r ps h parts r' res : process_merge o r ps h parts = Ret (r', res) -> r_commit res = h.
Proof.
  unfold process_merge. destruct (collect_diffs _ _); try done. cbn [obind]. destruct (ofold _ _ _) as [x|?|?]; try done. cbn [obind]. destruct (parent_files _ _); try done. cbn [obind].
  destruct (ofold (merge_step_rest _ _) _ _); try done. by intros [= <- <-].
Qed.
Lemma new_commit_inv s t c s' t' : inv s t -> s_mparts s = ∅ -> new_commit_t srt dur e s t c = (s', Ret tt, t') -> inv s' t'.
Proof.
  intros [Hi _] Hm. unfold new_commit_t, new_commit. destruct (decide (1 < length (parents (lc_hash c)))) as [Hp|Hp].
  - intros [= <- <-]. split; [exact Hi|]. intros _. exact Hp.
  - destruct (process_regular _ _ _ c) as [[r res]|?|?] eqn:E; [|done..]. intros [= <- <-]. apply regular_commit in E. split; cbn [s_out s_mparts finish_commit]; [|done].
    rewrite zip_snoc, E. pose proof (tells_regular _ t _ Hi Hp) as H. rewrite zip_len in H. exact H.
Qed.
Lemma merge_inv s t s' t' : inv s t -> s_mparts s <> ∅ -> got_merge_parts_t srt dur e s t = (s', Ret tt, t') -> inv s' t' /\ s_mparts s' = ∅.
Proof.
  intros [Hi Hm] Hne. unfold got_merge_parts_t, got_merge_parts. cbv zeta. destruct (process_merge _ _ _ _ _) as [[r res]|?|?] eqn:E; [|done..]. intros [= <- <-]. apply merge_commit in E.
  split; [|done]. split; cbn [s_out s_mparts finish_commit]; [|done]. rewrite zip_snoc, E. pose proof (tells_merge _ t _ Hi (Hm Hne)) as H. rewrite zip_len in H. exact H.
Qed.
Lemma commit_inv s t c s' t' : inv s t -> process_commit_t srt dur e s t c = (s', Ret tt, t') -> inv s' t'.
Proof.
  intros Hi. unfold process_commit_t. destruct (decide (s_mparts s = ∅)) as [Hm|Hm]; [by apply new_commit_inv|].
  destruct (bool_decide_reflect (s_mcommit s = lc_hash c)) as [Hc|Hc].
  - unfold process_commit. rewrite decide_False by done. rewrite bool_decide_eq_true_2 by done. intros [= <- <-]. destruct Hi as [H1 H2]. split; [exact H1|]. intros _. by apply H2.
  - destruct (got_merge_parts_t srt dur e s t) as [[s1 [[]|?|?]] t1] eqn:E; [|done..]. destruct (merge_inv _ _ _ _ Hi Hm E) as [Hi1 Hm1]. by apply new_commit_inv.
Qed.
Lemma commits_inv cs : forall s t s' t', inv s t -> process_commits_t srt dur e s t cs = (s', Ret tt, t') -> inv s' t'.
Proof.
  induction cs as [|c cs IH]; intros s t s' t' Hi; cbn [process_commits_t]; [by intros [= <- <-]|].
  destruct (process_commit_t srt dur e s t c) as [[s1 [[]|?|?]] t1] eqn:E; [|done..]. apply IH. by eapply commit_inv.
Qed.
Lemma log_inv s t cs s' t' : inv s t -> process_log_t srt dur e s t cs = (s', Ret tt, t') -> inv s' t'.
Proof.
  intros Hi. unfold process_log_t. destruct (process_commits_t srt dur e s t cs) as [[s1 [[]|?|?]] t1] eqn:E; [|done..]. pose proof (commits_inv cs _ _ _ _ Hi E) as Hi1.
  destruct (decide (s_mparts s1 = ∅)) as [Hm|Hm]; [by intros [= <- <-]|]. intros H. by apply (merge_inv _ _ _ _ Hi1 Hm) in H as [? _].
Qed.
(** The same run. *)
Lemma commit_same s t c : (process_commit_t srt dur e s t c).1 = process_commit e s c.
Proof.
  assert (Hn : forall s t, (new_commit_t srt dur e s t c).1 = new_commit e s c) by (intros s0 t0; unfold new_commit_t; by destruct (decide _)).
  unfold process_commit_t. destruct (decide (s_mparts s = ∅)) as [Hm|Hm]; [rewrite Hn; unfold process_commit; by rewrite decide_True|].
  destruct (bool_decide (s_mcommit s = lc_hash c)) eqn:Ec; [done|]. unfold process_commit. rewrite decide_False by done. rewrite Ec. unfold got_merge_parts_t.
  destruct (got_merge_parts e s) as [s1 [[]|?|?]]; [apply Hn|done..].
Qed.
Lemma commits_same cs : forall s t, (process_commits_t srt dur e s t cs).1 = process_commits e s cs.
Proof.
  induction cs as [|c cs IH]; intros s t; [done|]. cbn [process_commits_t process_commits]. pose proof (commit_same s t c) as H.
  destruct (process_commit_t srt dur e s t c) as [[s1 o1] t1]. cbn [fst] in H. rewrite <- H. destruct o1 as [[]|?|?]; [apply IH|done..].
Qed.
Lemma log_same cs s t : (process_log_t srt dur e s t cs).1 = process_log e s cs.
Proof.
  unfold process_log_t, process_log. pose proof (commits_same cs s t) as H. destruct (process_commits_t srt dur e s t cs) as [[s1 o1] t1]. cbn [fst] in H. rewrite <- H.
  destruct o1 as [[]|?|?]; [|done..]. by destruct (decide _).
Qed.
Lemma nothing_told : tells_about parents [] no_timing.
Proof. split; [done|]. split; [done|]. split; [done|]. split; [done|]. exact (slowest_all srt [] Hs). Qed.
Lemma run_told skip o s log out w : run_top skip e o s log = (out, Ret tt, w) ->
  tells_about parents (zip (map r_commit out) (map dur (seq 0 (length out)))) (run_timing srt dur e skip o s log).
Proof.
  unfold run_top, run_timing. destruct log as [|c cs]; [intros [= <- <-]; exact nothing_told|]. destruct (init_checkpoints skip o s) as [r|?|?]; [|done..].
  pose proof (log_same (c :: cs) (pst_init r) no_timing) as Hsame. destruct (process_log_t srt dur e (pst_init r) no_timing (c :: cs)) as [[s1 o1] t1] eqn:E. cbn [fst snd] in *. rewrite <- Hsame. cbn [fst snd].
  destruct o1 as [[]|?|?]; [|done..]. destruct (decide _); [done|]. intros [= <- <-].
  assert (Hi : inv (pst_init r) no_timing) by (split; [exact nothing_told|done]). exact (proj1 (log_inv _ _ _ _ _ Hi E)).
Qed.
End Run.

From Verif.Spec Require Import Records.
From Verif.Proofs Require Import RecordMore.
Section Files.
Context {T L : Type} (zt : T) (cl : classifiers L) (count : bytes -> bytes -> bytes -> list (Z * line_type) * totals) (meta : gmap bytes (mcommit T)) (fdur : nat -> Z).
Notation step_t := (code_info_step_t zt cl count meta fdur).
Notation step := (code_info_step zt cl count meta).
Notation looked l := (filter (looked_at (T := T) (L := L)) l).
(** [n] more files were timed. *)
Definition more (f : files_timing) (n : nat) (f' : files_timing) : Prop :=
  ft_count f' = ft_count f + n /\ ft_time f' = (ft_time f + total (map fdur (seq (ft_count f) n)))%Z.
Lemma more_none f : more f 0 f.
Proof. split; cbn; lia. Qed.
Lemma more_one f : more f 1 (time_file fdur f).
Proof. split; cbn [time_file ft_count ft_time seq map]; [lia|]. unfold total. cbn [foldr]. lia. Qed.
Lemma total_app l l' : total (l ++ l') = (total l + total l')%Z.
Proof. unfold total. induction l; cbn [app foldr]; lia. Qed.
Lemma more_more f n f' n' f'' : more f n f' -> more f' n' f'' -> more f (n + n') f''.
Proof. intros [H1 H2] [H3 H4]. split; [lia|]. rewrite seq_app, map_app, total_app, H4, H2, H1. lia. Qed.
Lemma step_counts commit cache res pb cache' res' f : used_cache cl cache -> step commit (cache, res) pb = Ret (cache', res') ->
  used_cache cl cache' /\ exists new f', res' = res ++ new /\ step_t commit (cache, res, f) pb = Ret (cache', res', f') /\ more f (length (looked new)) f'.
Proof.
  intros Hc. unfold code_info_step_t, code_info_step. destruct pb as [p b]. cbn [fst snd]. destruct (beq p []); [|destruct (mc_files commit !! p) as [cf|]].
  - intros [= <- <-]. split; [done|]. exists [], f. rewrite app_nil_r. split; [done|]. split; [done|]. apply more_none.
  - destruct (decide (cf_status cf = Removed)) as [Hr|Hr].
    + intros [= <- <-]. split; [done|]. eexists _, f. split; [reflexivity|]. cbn [obind]. split; [done|]. rewrite filter_cons_False; [|by intros [H|H]]. apply more_none.
    + destruct (get_info cl cache p (file_content b) (file_lines b)) as [[i c1]|?|?] eqn:E; [|done..]. cbn [obind].
      assert (Hc1 : used_cache cl c1) by (by eapply used_more). destruct (limits cl cache p _ _ _ _ Hc E) as (_ & Hv & _).
      destruct (bool_decide_reflect (i_skip i <> [])) as [Hs|Hs]; intros [= <- <-]; (split; [exact Hc1|]).
      * eexists _, f. split; [reflexivity|]. rewrite bool_decide_eq_false_2 by done. cbn [obind negb andb]. split; [done|]. apply violated_first_skip in Hv as (H1 & _ & H2 & _); [|done].
        rewrite filter_cons_False; [apply more_none|]. cbn [looked_at br_skipped]. by intros [H|H].
      * eexists _, (time_file fdur f). split; [reflexivity|]. rewrite bool_decide_eq_true_2 by (by apply dec_stable). cbn [obind negb andb]. split; [done|].
        rewrite filter_cons_True; [apply more_one|]. unfold looked_at, code_info_file. destruct (count _ _ _) as [calls tot]. destruct (process_calls _ calls) as [ls []]; cbn [br_skipped]; [by right|by left].
  - intros [= <- <-]. split; [done|]. exists [], f. rewrite app_nil_r. split; [done|]. split; [done|]. apply more_none.
Qed.
Lemma steps_count commit pbs : forall cache res cache' res' f, used_cache cl cache -> ofold (step commit) (cache, res) pbs = Ret (cache', res') ->
  used_cache cl cache' /\ exists new f', res' = res ++ new /\ ofold (step_t commit) (cache, res, f) pbs = Ret (cache', res', f') /\ more f (length (looked new)) f'.
Proof.
  induction pbs as [|pb pbs IH]; intros cache res cache' res' f Hc; cbn [ofold].
  - intros [= <- <-]. split; [done|]. exists [], f. rewrite app_nil_r. split; [done|]. split; [done|]. apply more_none.
  - destruct (step commit (cache, res) pb) as [[c1 r1]|?|?] eqn:E; [|done..]. cbn [obind]. intros H. destruct (step_counts commit cache res pb c1 r1 f Hc E) as (Hc1 & n1 & f1 & -> & Ht & Hm1).
    destruct (IH _ _ _ _ f1 Hc1 H) as (Hc' & n2 & f2 & -> & Ht2 & Hm2). split; [done|]. exists (n1 ++ n2), f2. rewrite Ht. cbn [obind]. rewrite <- app_assoc in *. split; [done|]. split; [done|].
    rewrite filter_app, app_length. by eapply more_more.
Qed.
Lemma all_count orders cache n rs xs f : used_cache cl cache -> records_for zt cl count meta orders cache n rs xs ->
  exists cache' f', all_files_t zt cl count meta fdur orders cache f n rs = Ret (cache', xs, f') /\ used_cache cl cache' /\ more f (length (looked (concat xs))) f'.
Proof.
  intros Hc H. revert f. induction H as [cache n|cache n r rs c1 x xs Hm E _ IH]; intros f.
  - exists cache, f. split; [done|]. split; [done|]. apply more_none.
  - unfold code_info_files in E. cbn [all_files_t]. unfold code_info_files_t. destruct (forallb _ _); [|done].
    destruct (steps_count _ _ _ _ _ _ f Hc E) as (Hc1 & new & f1 & -> & Ht & Hm1). rewrite Ht. cbn [obind app]. destruct (IH Hc1 f1) as (c2 & f2 & E2 & Hc2 & Hm2). rewrite E2. cbn [obind].
    exists c2, f2. split; [done|]. split; [done|]. cbn [concat]. cbn [app] in *. rewrite filter_app, app_length. by eapply more_more.
Qed.
End Files.
