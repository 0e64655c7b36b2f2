(** * A chain of any number of commits that all have the same file *)
From Verif.Model Require Import Base GoStrings IncBlame LogParser ParentsGraph Process Msgp Checkpoint.
From Verif.Spec Require Import Text UnifiedDiff Attribution GitLog CommitGraph History Processing Checkpoint Resuming.
From Verif.Proofs Require Import CheckpointProofs CheckpointFiles OldFork TextLemmas LogParse ParentsGraphProofs GraphExamples ProcessExamples CheckpointExamples.
From Verif.Props Require Import ProcessProps.
From Coq Require Import Lia.

Definition chain_id (i : nat) : bytes := replicate (S i) "a"%char.
Definition chain_parent (i : nat) : list bytes := match i with 0 => [] | S j => [chain_id j] end.
Definition chain_ids (n : nat) : list bytes := chain_id <$> seq 0 n.
Definition chain_parents (n : nat) : graph := list_to_map ((fun i => (chain_id i, chain_parent i)) <$> seq 0 n).
(** Every commit has the same file. *)
Definition flat (g : graph) : history := History g (fun _ => T_a) (fun c p => if decide (p = []) then D_a else []) ex_meta.
Definition chain (n : nat) : history := flat (chain_parents n).

#[export] Instance chain_id_inj : Inj (=) (=) chain_id.
Proof. intros i j E. apply (f_equal length) in E. unfold chain_id in E. rewrite !replicate_length in E. lia. Qed.
Lemma chain_id_elem i n : chain_id i ∈ chain_ids n <-> i < n.
Proof.
  unfold chain_ids. rewrite elem_of_list_fmap. split.
  - intros (j & E & Hj). apply (inj chain_id) in E as <-. apply elem_of_seq in Hj. lia.
  - intros Hi. exists i. split; [done|]. apply elem_of_seq. lia.
Qed.
Lemma chain_lookup n c ps : chain_parents n !! c = Some ps <-> exists i, i < n /\ c = chain_id i /\ ps = chain_parent i.
Proof.
  unfold chain_parents. rewrite <-elem_of_list_to_map.
  - rewrite elem_of_list_fmap. split.
    + intros (i & E & Hi). injection E as -> ->. apply elem_of_seq in Hi. exists i. split; [lia|done].
    + intros (i & Hi & -> & ->). exists i. split; [done|]. apply elem_of_seq. lia.
  - rewrite <-list_fmap_compose. apply (NoDup_fmap_2 chain_id). apply NoDup_seq.
Qed.
Lemma chain_at n i : i < n -> chain_parents n !! chain_id i = Some (chain_parent i).
Proof. intros Hi. apply chain_lookup. by exists i. Qed.
Lemma chain_hparents n i : i < n -> hparents (chain n) (chain_id i) = chain_parent i.
Proof. intros Hi. unfold hparents, parents, chain, flat. cbn [hi_parents]. by rewrite chain_at. Qed.
Lemma chain_child n p d : p ∈ hparents (chain n) d -> exists i, S i < n /\ p = chain_id i /\ d = chain_id (S i).
Proof.
  unfold hparents, parents, chain, flat. cbn [hi_parents]. destruct (chain_parents n !! d) as [ps|] eqn:E; [|intros H; by apply elem_of_nil in H].
  apply chain_lookup in E as (i & Hi & -> & ->). intros Hp. destruct i as [|i]; cbn in Hp; [by apply elem_of_nil in Hp|]. apply elem_of_list_singleton in Hp as ->. by exists i.
Qed.
Lemma chain_commit_id i : commit_id (chain_id i).
Proof. split; [done|]. unfold chain_id. change (forallb hex_char ("a"%char :: replicate i "a"%char) = true). cbn [forallb]. apply andb_true_iff. split; [reflexivity|]. induction i as [|i IH]; [done|]. cbn [replicate forallb]. by rewrite IH. Qed.
Lemma chain_valid n : valid_history 3 (chain n).
Proof.
  split.
  - intros x y Hxy. destruct (chain_child n y x) as (i & Hi & -> & ->); [exact Hxy|]. cbn [chain flat hi_parents]. rewrite chain_at by lia. by eexists.
  - intros c [ps Hps]. cbn [chain flat hi_parents] in Hps. apply chain_lookup in Hps as (i & Hi & -> & ->).
    unfold wf_commit. rewrite chain_hparents by done. split; [apply chain_commit_id|]. split; [|split; [|split; [|split]]].
    + destruct i; cbn; [constructor|]. constructor; [apply chain_commit_id|constructor].
    + destruct i; cbn; [constructor|apply NoDup_singleton].
    + split; [by apply const_no_nl|split; [by apply const_no_nl|constructor; [by apply const_no_nl|constructor]]].
    + intros _. exact D_a_ok.
    + intros p Hp. destruct i as [|i]; cbn in Hp; [by apply elem_of_nil in Hp|]. apply elem_of_list_singleton in Hp as ->. cbn [chain flat hi_diff hi_tree]. rewrite decide_False by done.
      apply describes_distinct; [constructor| |constructor]. intros f Hd. by destruct Hd.
Qed.
Lemma chain_first_ok n j m : j + m = n -> parents_first (chain n) (reverse (chain_ids j)) (chain_id <$> seq j m).
Proof.
  revert j. induction m as [|m IH]; intros j E; [done|]. cbn [seq]. rewrite fmap_cons. cbn [parents_first].
  assert (Hno : forall i, i <= j -> chain_id i ∉ chain_id <$> seq (S j) m).
  { intros i Hi Hin. apply elem_of_list_fmap in Hin as (k & Ek & Hk). apply (inj chain_id) in Ek as <-. apply elem_of_seq in Hk. lia. }
  split; [by apply Hno|]. split.
  - intros p Hp. apply chain_child in Hp as (i & Hi & -> & Ei). apply (inj chain_id) in Ei as ->. split; [|apply Hno; lia].
    rewrite elem_of_reverse, chain_id_elem. lia.
  - specialize (IH (S j) ltac:(lia)). unfold chain_ids in *. rewrite seq_S, fmap_app, reverse_app in IH. exact IH.
Qed.
Lemma chain_acyclic n : acyclic (chain_parents n).
Proof.
  assert (Ht : forall x y, ancestor (chain_parents n) x y -> length y < length x).
  { assert (Hs : forall x y, parent (chain_parents n) x y -> length y < length x).
    { intros x y Hp. destruct (chain_child n y x Hp) as (i & _ & -> & ->). unfold chain_id. rewrite !replicate_length. lia. }
    intros x y Hxy. induction Hxy as [x y Hxy|x y z Hxy _ IH]; [by apply Hs|]. apply Hs in Hxy. lia. }
  intros c Hc. apply Ht in Hc. lia.
Qed.
Lemma chain_given n : run_given (chain n) (ex_slow (chain n)) 3 (ex_env (chain n) id_orders) [] (chain_ids n).
Proof.
  split; [apply chain_valid|lia|apply ex_slow_right|apply chain_acyclic|exact (ex_env_right (chain n) id_orders id_orders_any)|exact (chain_first_ok n 0 n eq_refl)|].
  intros c Hc. apply elem_of_list_fmap in Hc as (i & -> & Hi). apply elem_of_seq in Hi. split.
  - cbn [chain flat hi_parents]. rewrite chain_at by lia. by eexists.
  - intros Hm. rewrite chain_hparents in Hm by lia. destruct i; cbn in Hm; lia.
Qed.
Lemma chain_finished n m i : m <= n -> S i < n -> (finished (chain n) (chain_ids m) (chain_id i) <-> S i < m).
Proof.
  intros Hmn Hi. unfold finished. split.
  - intros [_ Ha]. apply chain_id_elem, Ha. rewrite chain_hparents by done. apply elem_of_list_here.
  - intros Hm. split; [exists (chain_id (S i)); rewrite chain_hparents by done; apply elem_of_list_here|].
    intros d Hd. apply chain_child in Hd as (j & Hj & Ej & ->). apply (inj chain_id) in Ej as <-. by apply chain_id_elem.
Qed.

(** ** The state after the run *)
Definition chain_lines : list line := [Line x_ (chain_id 0)].
Definition chain_files : gmap bytes blame := {[ f_ := Blame (chain_id 0) chain_lines false ]}.
Definition chain_repo (n : nat) (r : repo) : Prop := forall c fs, r !! c = Some fs -> fs = chain_files /\ exists i, i < n /\ c = chain_id i.
Lemma chain_trim n ch ps : forall st, chain_repo n st.2.2 -> chain_repo n (trim ch ps st).2.2.
Proof.
  unfold trim. induction ps as [|p ps IH]; intros st Hx; [done|]. cbn [foldl]. apply IH. unfold trim_one. cbn [snd]. case_decide; [|done].
  unfold unload. case_decide; [|done]. cbn [snd]. destruct (last _) as [z|]; [|done]. intros c fs Hc. apply lookup_delete_Some in Hc as [_ Hc]. by apply Hx.
Qed.
Lemma chain_entry n i : i < n -> map commit_of (entries_of (chain n) (chain_id i)) =
  [commit_of (entry_of (chain n) (chain_id i) None (match i with 0 => D_a | _ => [] end))].
Proof. intros Hi. unfold entries_of. rewrite chain_hparents by done. destruct i; cbn [chain_parent chain flat hi_diff]; [reflexivity|]. rewrite decide_False by done. reflexivity. Qed.
Lemma chain_log n m j : j + m = n -> map commit_of (git_log (chain n) (chain_id <$> seq j m)) =
  map (fun i => commit_of (entry_of (chain n) (chain_id i) None (match i with 0 => D_a | _ => [] end))) (seq j m).
Proof.
  revert j. induction m as [|m IH]; intros j E; [done|]. cbn [seq]. rewrite fmap_cons. unfold git_log. cbn [map concat]. rewrite map_app, chain_entry by lia. cbn [app]. f_equal.
  apply IH. lia.
Qed.
Lemma chain_commit n i s s' : i < n -> chain_repo n (s_repo s) -> s_mparts s = ∅ -> (i = 0 -> s_repo s = ∅) ->
  process_commit (ex_env (chain n) id_orders) s (commit_of (entry_of (chain n) (chain_id i) None (match i with 0 => D_a | _ => [] end))) = (s', Ret tt) ->
  chain_repo n (s_repo s') /\ s_mparts s' = ∅.
Proof.
  intros Hi Hr Hm H0 E. unfold process_commit in E. rewrite decide_True in E by done. unfold new_commit in E.
  assert (Ep : env_parents (ex_env (chain n) id_orders) (chain_id i) = chain_parent i) by (exact (chain_hparents n i Hi)).
  set (c := commit_of _) in E. change (lc_hash c) with (chain_id i) in E. rewrite Ep in E. rewrite decide_False in E by (destruct i; cbn; lia).
  destruct (process_regular _ _ _ _) as [[r res]| |] eqn:Eg; [|done..]. injection E as <-. unfold finish_commit. cbn [s_repo s_mparts]. split; [|done]. apply chain_trim. cbn [snd].
  destruct i as [|i].
  - assert (Hx : omap_o (fun x : repo * result => map_to_list x.1) (process_regular (e_slow (ex_env (chain n) id_orders)) (s_repo s) (chain_parent 0) c) = Ret (map_to_list ({[chain_id 0 := chain_files]} : repo))).
    { rewrite (H0 eq_refl). subst c. vm_compute. reflexivity. }
    rewrite Eg in Hx. cbn [omap_o obind fst] in Hx. injection Hx as Hx. assert (r = {[chain_id 0 := chain_files]}) as -> by (apply map_to_list_inj; by rewrite Hx). intros d fs Hd. apply lookup_singleton_Some in Hd as [<- <-]. split; [done|exists 0; split; [lia|done]].
  - unfold process_regular in Eg. cbn [chain_parent] in Eg. change (lc_changes c) with (@nil bytes) in Eg. change (lc_hash c) with (chain_id (S i)) in Eg. cbn [ofold obind] in Eg.
    unfold get_commit_must in Eg. destruct (add_commit (s_repo s) (chain_id (S i)) !! chain_id i) as [fs|] eqn:Ef; [|done]. cbn [obind] in Eg. injection Eg as <- _.
    unfold add_commit in Ef. rewrite lookup_insert_ne in Ef by (intros En; apply (inj chain_id) in En; lia). apply Hr in Ef as [-> _].
    intros d fs Hd. unfold copy_unchanged, add_commit in Hd. rewrite insert_insert, lookup_insert in Hd. apply lookup_insert_Some in Hd as [[<- <-]|[_ Hd]]; [|by apply Hr].
    split; [|exists (S i); split; [lia|done]]. cbn [default]. rewrite map_filter_id by (intros; apply lookup_empty). exact (map_union_empty chain_files).
Qed.
Lemma chain_commits n m : forall j s s', j + m = n -> chain_repo n (s_repo s) -> s_mparts s = ∅ -> (j = 0 -> s_repo s = ∅) ->
  process_commits (ex_env (chain n) id_orders) s (map (fun i => commit_of (entry_of (chain n) (chain_id i) None (match i with 0 => D_a | _ => [] end))) (seq j m)) = (s', Ret tt) ->
  chain_repo n (s_repo s') /\ s_mparts s' = ∅.
Proof.
  induction m as [|m IH]; intros j s s' E Hr Hm H0 Es; [cbn in Es; by injection Es as <-|]. cbn [seq map process_commits] in Es.
  destruct (process_commit _ s _) as [s1 [[]|x|x]] eqn:E1; [|done..]. destruct (chain_commit n j s s1 ltac:(lia) Hr Hm H0 E1) as [Hr1 Hm1].
  apply (IH (S j) s1 s' ltac:(lia) Hr1 Hm1 ltac:(done) Es).
Qed.
Lemma chain_run n : exists s, process_log (ex_env (chain n) id_orders) (pst_init ∅) (map commit_of (git_log (chain n) (chain_ids n))) = (s, Ret tt) /\ chain_repo n (s_repo s).
Proof.
  destruct (C33_finished_bounded_partial 3 (chain n) (ex_slow (chain n)) (ex_env (chain n) id_orders) [] ∅ (chain_ids n)) as (s & _ & E & _).
  { destruct (chain_given n) as [A1 A2 A3 A4 A5 A6 A7]. split; try done. intros q Hq. by apply elem_of_nil in Hq. }
  exists s. split; [exact E|]. unfold process_log in E. unfold chain_ids in E. rewrite (chain_log n n 0 eq_refl) in E.
  destruct (process_commits _ _ _) as [s1 [[]|x|x]] eqn:E1; [|done..]. destruct (chain_commits n n 0 (pst_init ∅) s1 eq_refl) as [Hr Hm]; [intros c fs Hc; change ((∅ : repo) !! c = Some fs) in Hc; by rewrite lookup_empty in Hc|done|done|exact E1|].
  rewrite decide_True in E by done. by injection E as <-.
Qed.
(** As Go has it: all commits share one blame. *)
Definition chain_prepo (r : repo) : prepo := PRepo ((fun _ => {[ f_ := 0 ]}) <$> r) [PBlame (chain_id 0) [0] false] chain_lines.
Lemma chain_values n r : chain_repo n r -> values (chain_prepo r) = r.
Proof.
  intros Hr. unfold values. cbn [chain_prepo pr_files]. rewrite <-map_fmap_compose. apply map_eq. intros c. rewrite lookup_fmap. destruct (r !! c) as [fs|] eqn:E; [|done]. change (Some (omap (blame_value (chain_prepo r)) ({[f_ := 0]} : gmap bytes nat)) = Some fs). f_equal.
  apply Hr in E as [-> _]. apply map_eq. intros f. rewrite lookup_omap. unfold chain_files. destruct (decide (f = f_)) as [->|Hn]; [rewrite !lookup_singleton; reflexivity|rewrite !lookup_singleton_ne by (by apply not_eq_sym); reflexivity].
Qed.
Lemma chain_sound r : sound (chain_prepo r).
Proof.
  split.
  - intros c fs f b Hc Hf. cbn [chain_prepo pr_files pr_blames] in *. rewrite lookup_fmap in Hc. destruct (r !! c); [|done]. cbn in Hc. injection Hc as <-. apply lookup_singleton_Some in Hf as [_ <-]. cbn. lia.
  - intros b bl q Hb Hq. cbn [chain_prepo pr_blames pr_lines] in *. destruct b; cbn in Hb; [|done]. injection Hb as <-. apply elem_of_list_singleton in Hq as ->. cbn. lia.
Qed.
Lemma chain_encodable r : (forall c, is_Some (r !! c) -> small c) -> encodable ex_hash (chain_prepo r).
Proof.
  intros Hk. split; [|split; [|split; [|split; [|split]]]].
  - intros d. unfold num, ex_hash. apply N.mod_lt. done.
  - intros c f b Hb. unfold blame_at in Hb. cbn [chain_prepo pr_files] in Hb. rewrite lookup_fmap in Hb. destruct (r !! c) as [fs|] eqn:E; [|done]. cbn in Hb.
    split; [apply Hk; rewrite E; by eexists|]. apply lookup_singleton_Some in Hb as [<- _]. reflexivity.
  - intros bl Hbl. apply elem_of_list_singleton in Hbl as ->. split; reflexivity.
  - intros l Hl. apply elem_of_list_singleton in Hl as ->. split; reflexivity.
  - reflexivity.
  - reflexivity.
Qed.
Lemma chain_small n r : chain_repo n r -> (N.of_nat n < 4294967296)%N -> forall c, is_Some (r !! c) -> small c.
Proof. intros Hr Hn c [fs Hc]. apply Hr in Hc as (_ & i & Hi & ->). unfold small, len, chain_id. rewrite replicate_length. lia. Qed.
Lemma chain_saved r : encodable ex_hash (chain_prepo r) -> exists P', saved_as ex_hash no_skip (chain_prepo r) P'.
Proof.
  intros He. destruct (files_iso ex_hash no_skip (chain_prepo r) id (fun _ => id) (chain_sound r) He id_perm (fun _ => id_perm)) as (w & P' & _ & _ & Hw & Hr & _).
  exists P', id, (fun _ => id), w. split; [apply id_perm|]. split; [intros; apply id_perm|]. done.
Qed.
