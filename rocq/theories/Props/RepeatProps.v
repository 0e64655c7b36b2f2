(** * Property C73: two calls on one repository give the same records; and what merges with unusual files do to C27 and C73 *)
From Verif.Model Require Import Base GoStrings IncBlame LogParser ParentsGraph Process Msgp Checkpoint CheckpointFS CommitMeta FileInfo CodeInfo Net Pipeline.
From Verif.Spec Require Import Text UnifiedDiff Attribution GitLog CommitGraph History Processing Records Delivery Repeat.
From Verif.Proofs Require Import NetProofs PipelineProofs PipelineMore ProcessExamples CheckpointExamples RetypeExample RepeatProofs.
From Verif.Props Require Import ProcessProps RecordProps PipelineProps.
From Coq Require Import Lia.

Section Props.
Context {T L : Type} (zero_time : T) (cl : classifiers L).
Context (count : bytes -> bytes -> bytes -> list (Z * line_type) * totals) (meta : gmap bytes (mcommit T)).
Context (skip : bytes -> pres unit) (o : popts) (disk : fs) (text : bytes).
Notation act orders cache e wr := (act zero_time cl count meta orders cache skip e o disk text None None wr).
Notation call := (code_call (T := T) (L := L)).

(** C73: if one call on a repository returned nil with the records [received c1], then every other call on it (other iteration orders of all
    maps, another schedule, another history of the file cache) ends, returns nil and delivers the same records, commit by commit, and passes the
    same state to the checkpoint. *)
Theorem C73_same_records_partial e1 e2 orders1 orders2 cache1 cache2 c1 w :
  (log_run text).2 = Ret tt -> same_but_orders e1 e2 -> steady_merges e1 (log_run text).1 ->
  (forall n, any_perm (orders1 n)) -> (forall n, any_perm (orders2 n)) -> used_cache cl cache1 -> used_cache cl cache2 ->
  rtc (step (act orders1 cache1 e1 None)) call c1 -> final (act orders1 cache1 e1 None) c1 -> returned c1 = Some (Ret tt, w) ->
  (exists n, forall m c2, nsteps (step (act orders2 cache2 e2 None)) m call c2 -> m <= n) /\
  forall c2, rtc (step (act orders2 cache2 e2 None)) call c2 ->
    ~ crashing (act orders2 cache2 e2 None) c2 /\
    (final (act orders2 cache2 e2 None) c2 -> returned c2 = Some (Ret tt, w) /\ same_by_commit (received c1) (received c2)).
Proof.
  intros Hpo Hsame Hst Ho1 Ho2 Hu1 Hu2 Hc1 Hfin1 Hret1.
  destruct (returned_nil zero_time cl count meta orders1 cache1 skip e1 o disk text None c1 w Hpo Hc1 Hret1) as (out & xs & Hrun & Hxs & _).
  destruct (C53_every_schedule zero_time cl count meta orders1 cache1 skip e1 o disk text None out w xs Hpo Hrun Hxs) as [_ Hall1].
  destruct (Hall1 c1 Hc1) as (_ & _ & _ & Hf1). destruct (Hf1 Hfin1) as (_ & Er1 & _ & _).
  destruct (records_same zero_time cl count meta orders1 orders2 Ho1 Ho2 out cache1 cache2 0 xs Hu1 Hu2 Hxs) as (xs2 & Hxs2 & HF).
  pose proof (run_top_same e1 e2 Hsame _ Hst skip o disk out w Hrun) as Hrun2.
  destruct (C53_every_schedule zero_time cl count meta orders2 cache2 skip e2 o disk text None out w xs2 Hpo Hrun2 Hxs2) as [Hb Hall2].
  split; [exact Hb|]. intros c2 Hc2. destruct (Hall2 c2 Hc2) as (Hnc & _ & _ & Hf2). split; [exact Hnc|]. intros Hfin2.
  destruct (Hf2 Hfin2) as (_ & Er2 & _ & Hr2). split; [rewrite Hr2; by destruct w|]. rewrite Er1, Er2. by exists xs, xs2.
Qed.
End Props.
Print Assumptions C73_same_records_partial.

(** ** A concrete case *)
Section Check.
Context (e : env) (cs : list lcommit).
Definition parsed (c : lcommit) : list diff := omap (fun ch => match parse ch with Ret d => Some d | _ => None end) (lc_changes c).
Definition steady_check : bool :=
  forallb (fun c => let ps := env_parents e (lc_hash c) in
    (length ps <=? 1) ||
    (bool_decide (NoDup ps) && bool_decide (lc_hash c ∉ ps) && bool_decide (lc_from c ∈ ps) &&
     forallb (fun c' => negb (bool_decide (lc_hash c' = lc_hash c)) ||
       forallb (fun d => forallb (fun d' => negb (bool_decide (d_path d = [])) || bool_decide (d_path d' = []) || negb (bool_decide (d_prev d = d_path d')))
         (parsed c')) (parsed c)) cs)) cs.
Lemma parsed_in c ch d : ch ∈ lc_changes c -> parse ch = Ret d -> In d (parsed c).
Proof. intros H1 H2. apply elem_of_list_In. unfold parsed. apply elem_of_list_omap. exists ch. split; [done|]. by rewrite H2. Qed.
Lemma steady_right : steady_check = true -> steady_merges e cs.
Proof.
  unfold steady_check. rewrite forallb_forall. intros H c Hc Hl. specialize (H c (proj1 (elem_of_list_In _ _) Hc)). cbn zeta in H.
  apply orb_prop in H as [H|H]; [apply Nat.leb_le in H; lia|]. apply andb_prop in H as [[[H1 H2]%andb_prop H3]%andb_prop H4].
  apply bool_decide_eq_true in H1, H2, H3. split; [done|]. split; [done|]. split; [done|].
  intros c' ch d ch' d' Hc' Hh A1 A2 B1 B2 P1 P2 E. rewrite forallb_forall in H4. specialize (H4 c' (proj1 (elem_of_list_In _ _) Hc')).
  apply orb_prop in H4 as [H4|H4]; [apply negb_true_iff, bool_decide_eq_false in H4; done|].
  rewrite forallb_forall in H4. specialize (H4 d (parsed_in _ _ _ A1 A2)). rewrite forallb_forall in H4. specialize (H4 d' (parsed_in _ _ _ B1 B2)).
  apply orb_prop in H4 as [[H4|H4]%orb_prop|H4].
  - apply negb_true_iff, bool_decide_eq_false in H4. done.
  - by apply bool_decide_eq_true in H4.
  - apply negb_true_iff, bool_decide_eq_false in H4. done.
Qed.
End Check.

Notation ex_act H o wr := (act 0%N pl_cl ex_count pl_meta pl_orders ∅ no_skip (ex_env H o) (POpts [] false false false []) (FS None None) wr None None None).
(** The merge of ex_hist is plain; there is a call that returns nil. *)
Example C73_hypotheses_hold :
  (log_run pl_good_text).2 = Ret tt /\ same_but_orders (ex_env ex_hist rev_orders) (ex_env ex_hist id_orders) /\
  steady_merges (ex_env ex_hist rev_orders) (log_run pl_good_text).1 /\ (forall n, any_perm (pl_orders n)) /\ used_cache pl_cl ∅ /\
  exists c w, rtc (step (ex_act ex_hist rev_orders pl_good_text)) code_call c /\ final (ex_act ex_hist rev_orders pl_good_text) c /\ returned c = Some (Ret tt, w) /\ length (received c) = 5.
Proof.
  split; [lk|]. split; [split; [reflexivity|split; [reflexivity|split; [reflexivity|split; intros ?; [apply rev_orders_any|apply id_orders_any]]]]|].
  split; [apply steady_right; lk|]. split; [intros n l; unfold pl_orders; destruct (Nat.even n); [done|by rewrite <- Permutation_rev]|]. split; [constructor|].
  destruct C53_hypotheses_hold as (Hpo & out & w & xs & H1 & _ & H2 & H3).
  destruct (call_reaches_end 0%N pl_cl ex_count pl_meta pl_orders ∅ no_skip (ex_env ex_hist rev_orders) (POpts [] false false false []) (FS None None) pl_good_text None None None
    out (Ret tt) w xs eq_refl eq_refl H1 H2) as (f & Hf & Hend).
  pose proof (call_end_final 0%N pl_cl ex_count pl_meta pl_orders ∅ no_skip (ex_env ex_hist rev_orders) (POpts [] false false false []) (FS None None) pl_good_text None None None _ _ _ _ _ Hend) as Hfin.
  destruct (C53_every_schedule 0%N pl_cl ex_count pl_meta pl_orders ∅ no_skip (ex_env ex_hist rev_orders) (POpts [] false false false []) (FS None None) pl_good_text None out w xs Hpo H1 H2) as [_ Hall].
  destruct (Hall f Hf) as (_ & _ & _ & Hff). destruct (Hff Hfin) as (_ & Er & _ & Hr). exists f, w. split; [exact Hf|]. split; [exact Hfin|].
  split; [rewrite Hr; by destruct w|]. rewrite Er. apply (f_equal length) in H3. rewrite map_length in H3. exact H3.
Qed.

(** ** Merges that change the type of a file

    C73 is false for them: in ex4_hist the merge replaces g by a symbolic link; one call delivers the record of g with its line, another one
    without lines, as if it was deleted. *)
Definition ex4_text : bytes := render_log (git_log ex4_hist ex2_commits).
Lemma ex4_call o names :
  (let x := run_top no_skip (ex_env ex4_hist o) (POpts [] false false false []) (FS None None) (log_run ex4_text).1 in (x.1.2, pl_names x.1.1, snd <$> x.2)) = (Ret tt, Some names, Some d4) ->
  exists c w, rtc (step (ex_act ex4_hist o ex4_text)) code_call c /\ final (ex_act ex4_hist o ex4_text) c /\ returned c = Some (Ret tt, w) /\
    map (fun r => (mc_sha (br_commit r), br_filename r, length (br_lines r))) (received c) = names.
Proof.
  intros Hx. destruct (pl_shape _ _ _ _ Hx) as (out & w & xs & H1 & _ & H2 & H3).
  destruct (call_reaches_end 0%N pl_cl ex_count pl_meta pl_orders ∅ no_skip (ex_env ex4_hist o) (POpts [] false false false []) (FS None None) ex4_text None None None
    out (Ret tt) w xs eq_refl eq_refl H1 H2) as (f & Hf & Hend).
  pose proof (call_end_final 0%N pl_cl ex_count pl_meta pl_orders ∅ no_skip (ex_env ex4_hist o) (POpts [] false false false []) (FS None None) ex4_text None None None _ _ _ _ _ Hend) as Hfin.
  assert (Hpo : (log_run ex4_text).2 = Ret tt) by lk.
  destruct (C53_every_schedule 0%N pl_cl ex_count pl_meta pl_orders ∅ no_skip (ex_env ex4_hist o) (POpts [] false false false []) (FS None None) ex4_text None out w xs Hpo H1 H2) as [_ Hall].
  destruct (Hall f Hf) as (_ & _ & _ & Hff). destruct (Hff Hfin) as (_ & Er & _ & Hr). exists f, w. split; [exact Hf|]. split; [exact Hfin|].
  split; [rewrite Hr; by destruct w|]. rewrite Er. exact H3.
Qed.
Theorem C73_retyped_refuted :
  valid_history 3 ex4_hist /\ acyclic (hi_parents ex4_hist) /\ parents_first ex4_hist [] ex2_commits /\
  same_but_orders (ex_env ex4_hist id_orders) (ex_env ex4_hist rev_orders) /\
  exists c1 c2 w1 w2,
    rtc (step (ex_act ex4_hist id_orders ex4_text)) code_call c1 /\ final (ex_act ex4_hist id_orders ex4_text) c1 /\ returned c1 = Some (Ret tt, w1) /\
    rtc (step (ex_act ex4_hist rev_orders ex4_text)) code_call c2 /\ final (ex_act ex4_hist rev_orders ex4_text) c2 /\ returned c2 = Some (Ret tt, w2) /\
    ~ same_by_commit (received c1) (received c2).
Proof.
  split; [exact ex4_valid|]. split; [exact ex4_acyclic|]. split; [exact ex4_parents_first|].
  split; [split; [reflexivity|split; [reflexivity|split; [reflexivity|split; intros ?; [apply id_orders_any|apply rev_orders_any]]]]|].
  destruct (ex4_call id_orders [(a1, f_, 1); (a1, g_, 1); (b2, f_, 2); (c3, h_, 1); (d4, g_, 0)]) as (c1 & w1 & A1 & A2 & A3 & A4); [lk|].
  destruct (ex4_call rev_orders [(a1, f_, 1); (a1, g_, 1); (b2, f_, 2); (c3, h_, 1); (d4, g_, 1)]) as (c2 & w2 & B1 & B2 & B3 & B4); [lk|].
  exists c1, c2, w1, w2. split; [exact A1|]. split; [exact A2|]. split; [exact A3|]. split; [exact B1|]. split; [exact B2|]. split; [exact B3|].
  intros (xs1 & xs2 & E1 & E2 & HF).
  assert (Hp : received c1 ≡ₚ received c2).
  { rewrite E1, E2. clear -HF. induction HF as [|x1 x2 l1 l2 [Hx _] _ IH]; [done|]. cbn [concat]. by rewrite Hx, IH. }
  apply (Permutation_map (fun r => (mc_sha (br_commit r), br_filename r, length (br_lines r)))) in Hp. rewrite A4, B4 in Hp.
  assert (Hin : (d4, g_, 0) ∈ [(a1, f_, 1); (a1, g_, 1); (b2, f_, 2); (c3, h_, 1); (d4, g_, 1)]).
  { rewrite <- Hp. apply (bool_decide_unpack _). vm_compute. exact I. }
  apply (bool_decide_pack _) in Hin. vm_compute in Hin. exact Hin.
Qed.
Print Assumptions C73_retyped_refuted.

(** C27 is false for merges that are not plain: everything else is as in C27_results_right_partial, but the result of the merge d4 is wrong. *)
Lemma not_right H slow c res f : valid_history 3 H -> slow_blame_right H slow -> is_Some (hi_parents H !! c) -> 1 < length (hparents H c) ->
  (exists x ls, hi_tree H c !! f = Some (Entry x (CText ls)) /\ ls <> []) -> r_files res !! f = Some (Blame c [] false) -> ~ commit_right H slow c res.
Proof.
  intros HV HS Hc Hl (x & ls & Hf & Hne) Hr. unfold commit_right. rewrite decide_True by done. intros (_ & Hm & _).
  destruct (Hm f ltac:(by eexists)) as (Hb & _). specialize (Hb _ Hr). destruct (C27_blame_is_the_file 3 H slow c f _ _ HV HS Hc Hb Hf) as [Hx _].
  specialize (Hx eq_refl). cbn in Hx. by inversion Hx; subst.
Qed.
Theorem C27_retyped_refuted :
  valid_history 3 ex4_hist /\ slow_blame_right ex4_hist (ex_slow ex4_hist) /\ acyclic (hi_parents ex4_hist) /\ env_right ex4_hist (ex_slow ex4_hist) (ex_env ex4_hist id_orders) /\
  parents_first ex4_hist [] ex2_commits /\
  exists s res, process_log (ex_env ex4_hist id_orders) (pst_init ∅) (log_run ex4_text).1 = (s, Ret tt) /\ s_out s !! 3 = Some res /\
    hi_tree ex4_hist d4 !! g_ = Some (lnk [w_]) /\ r_files res !! g_ = Some (Blame d4 [] false) /\ ~ commit_right ex4_hist (ex_slow ex4_hist) d4 res.
Proof.
  split; [exact ex4_valid|]. split; [apply ex_slow_right|]. split; [exact ex4_acyclic|]. split; [apply ex_env_right, id_orders_any|]. split; [exact ex4_parents_first|].
  destruct (process_log (ex_env ex4_hist id_orders) (pst_init ∅) (log_run ex4_text).1) as [s oc] eqn:E.
  assert (Eo : (let x := process_log (ex_env ex4_hist id_orders) (pst_init ∅) (log_run ex4_text).1 in
    (x.2, (fun r => r_files r !! g_) <$> s_out x.1 !! 3)) = (Ret tt, Some (Some (Blame d4 [] false)))) by lk.
  rewrite E in Eo. cbn [fst snd] in Eo. injection Eo as -> Eo. destruct (s_out s !! 3) as [res|] eqn:Er; [|discriminate Eo]. injection Eo as Eo.
  exists s, res. split; [reflexivity|]. split; [exact Er|]. split; [lk|]. split; [exact Eo|].
  eapply not_right with (f := g_); [exact ex4_valid|apply ex_slow_right|vm_compute; by eexists|apply (bool_decide_unpack _); vm_compute; exact I| |exact Eo].
  exists (B "120000"), [w_]. split; [lk|discriminate].
Qed.
Print Assumptions C27_retyped_refuted.
Theorem C27_marker_in_name_refuted :
  valid_history 3 ex5_hist /\ slow_blame_right ex5_hist (ex_slow ex5_hist) /\ acyclic (hi_parents ex5_hist) /\ parents_first ex5_hist [] ex2_commits /\
  (forall c p f, ~ retyped (hi_tree ex5_hist p) (hi_tree ex5_hist c) f) /\
  env_right ex5_hist (ex_slow ex5_hist) (ex_env ex5_hist id_orders) /\
  exists s res, process_log (ex_env ex5_hist id_orders) (pst_init ∅) (log_run (render_log (git_log ex5_hist ex2_commits))).1 = (s, Ret tt) /\ s_out s !! 3 = Some res /\
    (forall p, p ∈ hparents ex5_hist d4 -> hi_tree ex5_hist p !! q_ <> hi_tree ex5_hist d4 !! q_) /\ hi_tree ex5_hist d4 !! q_ = Some (txt [y_]) /\
    r_files res !! q_ = None /\ ~ commit_right ex5_hist (ex_slow ex5_hist) d4 res.
Proof.
  split; [exact ex5_valid|]. split; [apply ex_slow_right|]. split; [exact ex5_acyclic|]. split; [exact ex5_parents_first|]. split.
  { intros c p f. assert (Hall : forall c f e, hi_tree ex5_hist c !! f = Some e -> en_mode e = B "100644").
    { intros c' f' e'. cbn [ex5_hist hi_tree]. unfold pick. destruct (list_find _ _) as [[i [k t]]|] eqn:El; [|by rewrite lookup_empty].
      apply list_find_Some in El as (El & _). revert f' e'. apply modes_check.
      destruct i as [|[|[|[|i]]]]; cbn in El; [injection El as <- <-; lk..|]. destruct i; discriminate El. }
    apply same_mode_not_retyped; apply Hall. }
  split; [apply ex_env_right, id_orders_any|].
  destruct (process_log (ex_env ex5_hist id_orders) (pst_init ∅) (log_run (render_log (git_log ex5_hist ex2_commits))).1) as [s oc] eqn:E.
  assert (Eo : (let x := process_log (ex_env ex5_hist id_orders) (pst_init ∅) (log_run (render_log (git_log ex5_hist ex2_commits))).1 in
    (x.2, (fun r => r_files r !! q_) <$> s_out x.1 !! 3)) = (Ret tt, Some None)) by lk.
  rewrite E in Eo. cbn [fst snd] in Eo. injection Eo as -> Eo. destruct (s_out s !! 3) as [res|] eqn:Er; [|discriminate Eo]. injection Eo as Eo.
  assert (Hp : forall p, p ∈ hparents ex5_hist d4 -> hi_tree ex5_hist p !! q_ <> hi_tree ex5_hist d4 !! q_).
  { intros p Hp. change (p ∈ [b2; c3]) in Hp. apply elem_of_cons in Hp as [->|Hp]; [vm_compute; discriminate|]. apply elem_of_list_singleton in Hp as ->. vm_compute. discriminate. }
  exists s, res. split; [reflexivity|]. split; [exact Er|]. split; [exact Hp|]. split; [lk|]. split; [exact Eo|].
  unfold commit_right. rewrite decide_True by (apply (bool_decide_unpack _); vm_compute; exact I). intros (_ & Hm & _).
  destruct (Hm q_) as (_ & Hs & _); [vm_compute; by eexists|]. destruct (Hs Hp) as [b Hb]. rewrite Eo in Hb. discriminate Hb.
Qed.
Print Assumptions C27_marker_in_name_refuted.
