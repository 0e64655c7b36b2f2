(** * C23: what a Branches call delivers, under every schedule *)
From Verif.Model Require Import Base GoStrings GoSort ParentsGraph Branches CommitMeta BranchMeta Net BranchPool.
From Verif.Spec Require Import Text GitLog CommitGraph Refs BranchDelivery.
From Verif.Proofs Require Import BranchProofs BranchMore BranchPoolProofs BranchRun GraphExamples TrimProofs.
From Verif.Props Require Import GraphProps RefProps.
From Coq Require Import Lia.

(** Whatever the scheduling of the main goroutine, the feeder, the workers (at least one), the forwarder and the caller: no schedule is
    infinite; no goroutine sends on or closes a closed channel; the caller receives the default branch's record first and then the
    records of the items in some order, each once and nothing else; when the call has returned, it has returned nil and the caller
    has received all of them; its channel is closed exactly then; and when nothing can happen any more the call has returned and no goroutine is left behind. *)
Theorem C23_every_schedule r0 work items n : 0 < n -> works work items ->
  let act := bact (Ret r0) None work items n in
  (exists k, forall j c, nsteps (step act) j (branches_call None n) c -> j <= k) /\
  forall c, rtc (step act) (branches_call None n) c ->
    ~ crashing act c /\
    (exists rs, rs ≡ₚ records_of work items /\ branches_received c `prefix_of` option_list r0 ++ rs /\
       forall oc, branches_returned c = Some oc -> oc = Ret tt /\ branches_received c = option_list r0 ++ rs) /\
    (b_res ∈ closed c <-> exists oc, branches_returned c = Some oc) /\
    (final act c -> branches_ended c /\ branches_returned c = Some (Ret tt)).
Proof. exact (schedules r0 work items n). Qed.
Print Assumptions C23_every_schedule.

(** An error before the workers are started: at most the default branch's record is received and the error is returned. *)
Theorem C23_errors_returned pre dflt names_err work items n e : 0 < n ->
  pre = Some e \/ (pre = None /\ (dflt = Err e \/ exists r, dflt = Ret r /\ names_err = Some e)) -> (forall m, dflt <> Panic m) ->
  let act := bact dflt names_err work items n in
  (exists k, forall j c, nsteps (step act) j (branches_call pre n) c -> j <= k) /\
  forall c, rtc (step act) (branches_call pre n) c ->
    ~ crashing act c /\
    (forall b, b ∈ branches_received c -> dflt = Ret (Some b)) /\
    (forall oc, branches_returned c = Some oc -> oc = Err e) /\
    (final act c -> branches_ended c /\ branches_returned c = Some (Err e)).
Proof. intros Hn He Hd. exact (errors_returned pre dflt names_err work items n e He Hn Hd). Qed.
Print Assumptions C23_errors_returned.

(** On a repository whose graph [g] holds every parent: when the call has returned, under every schedule and every iteration order of
    Go maps, the caller has received the default branch first, then one record per branch and one per distinct pull request head
    that is in the graph, each carrying the information of C16-C21; unknown pull request heads are skipped. *)
Theorem C23_every_branch_once rng po sha g es d dname first names prs n :
  0 < n -> (forall i, any_order (rng i)) -> any_order po -> es ≡ₚ map_to_list g -> complete g -> is_Some (g !! d) ->
  Forall (fun i : item => i.1 <> [] /\ is_Some (g !! i.2)) names ->
  let info i := branch_info (rng i) sha g (children_from_parents es) d i.1 i.2 in
  exists b0, default_record sha g dname d first = Ret b0 /\ br_default b0 = true /\ br_name b0 = dname /\ br_head b0 = d /\
  forall c, rtc (step (bact (Ret (Some b0)) None info (work_items po false names prs) n)) (branches_call None n) c ->
  forall oc, branches_returned c = Some oc ->
    oc = Ret tt /\
    exists recs shas, branches_received c = b0 :: recs /\
      lists_exactly shas (fun s => s ∈ prs /\ is_Some (g !! s)) /\
      map (fun r => (br_name r, br_head r)) recs ≡ₚ names ++ map (fun s => ([], s)) shas /\
      forall r, r ∈ recs -> info (br_name r, br_head r) = Ret (Some r) /\ (br_pr r = true <-> br_name r = []) /\ br_default r = false.
Proof.
  intros Hn Hrng Hpo Hes Hg Hd Hnames info.
  destruct (C22_default_branch_commits sha g dname d first (complete_closed g d Hg Hd)) as (b0 & E0 & _ & _ & D1 & D2 & D3 & _).
  exists b0. split; [exact E0|]. split; [exact D1|]. split; [exact D3|]. split; [exact D2|]. intros c Hc oc Hoc.
  destruct (records_of_items rng sha g es d Hrng Hes Hg Hd po names prs Hpo Hnames) as (Hw & shas & S1 & S2 & S3).
  change (branch_work rng sha g es d) with info in *.
  destruct (schedules (Some b0) info (work_items po false names prs) n Hn Hw) as [_ H]. destruct (H c Hc) as (_ & (rs & R1 & _ & R3) & _).
  destruct (R3 oc Hoc) as [-> R4]. split; [done|]. exists rs, shas. split; [exact R4|]. split; [exact S1|]. split.
  - rewrite <- S2. change (map (λ r : branch, (br_name r, br_head r))) with (fmap (M:=list) (λ r : branch, (br_name r, br_head r))). by rewrite R1.
  - intros r Hr. rewrite Forall_forall in S3. apply S3. by rewrite <- R1.
Qed.
Print Assumptions C23_every_branch_once.
Example C23_hypotheses_hold :
  0 < workers_for 4 0 /\ complete ex_merged /\ is_Some (ex_merged !! B "m5") /\
  Forall (fun i : item => i.1 <> [] /\ is_Some (ex_merged !! i.2)) [(B "t", B "b3"); (B "u", B "b2")] /\
  records_of (fun i => branch_info (fun l => l) (fun s => s) ex_merged (children_from_parents (map_to_list ex_merged)) (B "m5") i.1 i.2)
    (work_items (fun l => l) false [(B "t", B "b3")] [B "b2"; B "unknown"; B "b2"]) =
  [Branch (B "tm1") (B "t") false (B "b3") false true (B "m4") [B "m1"] [B "b2"; B "b3"] 0 2 (B "b2");
   Branch [] [] true (B "b2") false true (B "b3") [B "m1"] [B "b2"] 0 1 (B "b2")].
Proof.
  split; [vm_compute; lia|]. split; [apply complete_check; vm_compute; reflexivity|]. split; [apply (bool_decide_unpack _); vm_compute; exact I|].
  split; [|vm_compute; reflexivity]. repeat constructor; try done; apply (bool_decide_unpack _); vm_compute; exact I.
Qed.

(** From what git prints (local branches, whose names do not run into the separator of C24): when the call has returned, the caller has
    received every branch exactly once, the default branch first, and then also every known pull request head. *)
Theorem C23_all_branches_once {T} (pd : bytes -> option T) out rng po sha g es d dname refs first prs n :
  0 < n -> (forall i, any_order (rng i)) -> any_order po -> es ≡ₚ map_to_list g -> complete g ->
  bare dname -> Forall wf_ref refs -> NoDup (map rf_name refs) -> (forall r, r ∈ refs -> exists t, pd (rf_date r) = Some t) ->
  (exists r, r ∈ refs /\ rf_name r = dname /\ rf_commit r = d) -> (forall r, r ∈ refs -> rf_name r <> B "HEAD" /\ is_Some (g !! rf_commit r)) ->
  length d = 40 -> out false = Ret (render_refs false refs) ->
  let info i := branch_info (rng i) sha g (children_from_parents es) d i.1 i.2 in
  get_default (Ret (dname ++ [NL])) (Ret (d ++ [NL])) = Ret (dname, d) /\
  exists names, names_and_hashes (branch_get pd false false (Ret (dname ++ [NL])) out) = Ret names /\
  exists b0, default_record sha g dname d first = Ret b0 /\ br_default b0 = true /\
  forall c, rtc (step (bact (Ret (Some b0)) None info (work_items po false names prs) n)) (branches_call None n) c ->
  forall oc, branches_returned c = Some oc ->
    oc = Ret tt /\
    exists recs shas, branches_received c = b0 :: recs /\
      lists_exactly shas (fun s => s ∈ prs /\ is_Some (g !! s)) /\
      map (fun r => (br_name r, br_head r)) (b0 :: recs) ≡ₚ map (fun r => (rf_name r, rf_commit r)) refs ++ map (fun s => ([], s)) shas /\
      forall r, r ∈ recs -> info (br_name r, br_head r) = Ret (Some r) /\ (br_pr r = true <-> br_name r = []) /\ br_default r = false.
Proof.
  intros Hn Hrng Hpo Hes Hg Hbare Hw Hnd Hp (rd & Hrd & Ern & Erc) Hk Hlen Ho info.
  pose proof (proj1 (Forall_forall _ _) Hw) as Hwf. destruct (Hwf rd Hrd) as (Hc & Hname & _). rewrite Ern in Hname. rewrite Erc in Hc.
  split; [apply C24_default_branch; [exact Hname|exact Hbare|rewrite <- Ern; by apply Hk|exact Hc|exact Hlen]|].
  destruct (C24_branch_list_partial pd false false dname refs out Hname Hbare Hw Hnd Hp Ho) as (res & E & H1 & H2 & _).
  exists (map (fun r => (bn_name r, bn_commit r)) res). split; [unfold names_and_hashes; by rewrite E|].
  assert (Hin : forall nm cm, (nm, cm) ∈ map (fun r => (bn_name r, bn_commit r)) res <-> nm <> dname /\ (nm, cm) ∈ map (fun r => (rf_name r, rf_commit r)) refs).
  { intros nm cm. change (map (λ r : branch_ref T, (bn_name r, bn_commit r)) res) with ((λ r : branch_ref T, (bn_name r, bn_commit r)) <$> res).
    change (map (λ r : ref, (rf_name r, rf_commit r)) refs) with ((λ r : ref, (rf_name r, rf_commit r)) <$> refs). rewrite !elem_of_list_fmap. split.
    - intros ([nm' cm' t] & [= -> ->] & Hr). apply H1 in Hr as (date & Hr & _ & _ & Hi). split; [by destruct Hi|]. by exists (Ref cm' nm' date).
    - intros (Hne & [cm' nm' date] & [= -> ->] & Hr). destruct (Hp _ Hr) as [t Ht]. exists (BranchRef nm' cm' t). split; [done|]. apply H1. exists date.
      split; [done|]. split; [done|]. split; [by apply (Hk _ Hr)|by right]. }
  assert (Hnames : Forall (fun i : item => i.1 <> [] /\ is_Some (g !! i.2)) (map (fun r => (bn_name r, bn_commit r)) res)).
  { apply Forall_forall. intros [nm cm] Hi. apply Hin in Hi as [_ Hi]. change (map (λ r : ref, (rf_name r, rf_commit r)) refs) with ((λ r : ref, (rf_name r, rf_commit r)) <$> refs) in Hi.
    apply elem_of_list_fmap in Hi as (r & [= -> ->] & Hr). cbn. split; [apply (Hwf r Hr)|by apply Hk]. }
  assert (Hd : is_Some (g !! d)) by (rewrite <- Erc; by apply Hk).
  destruct (C23_every_branch_once rng po sha g es d dname first _ prs n Hn Hrng Hpo Hes Hg Hd Hnames) as (b0 & E0 & D1 & D2 & D3 & H).
  exists b0. split; [exact E0|]. split; [exact D1|]. intros c Hcr oc Hoc. destruct (H c Hcr oc Hoc) as (-> & recs & shas & R1 & R2 & R3 & R4).
  split; [done|]. exists recs, shas. split; [exact R1|]. split; [exact R2|]. split; [|exact R4]. cbn [map]. rewrite D2, D3, R3.
  rewrite app_comm_cons. apply Permutation_app_tail. apply NoDup_Permutation.
  - apply NoDup_cons. split; [intros Hx; apply Hin in Hx as [? _]; done|]. eapply (NoDup_fmap_1 fst). change (NoDup (map fst (map (λ r : branch_ref T, (bn_name r, bn_commit r)) res))). rewrite map_map. exact H2.
  - eapply (NoDup_fmap_1 fst). change (NoDup (map fst (map (λ r : ref, (rf_name r, rf_commit r)) refs))). rewrite map_map. exact Hnd.
  - intros [nm cm]. rewrite elem_of_cons, Hin. split.
    + intros [[= -> ->]|[_ Hx]]; [|exact Hx]. change (map (λ r : ref, (rf_name r, rf_commit r)) refs) with ((λ r : ref, (rf_name r, rf_commit r)) <$> refs).
      apply elem_of_list_fmap. exists rd. by rewrite Ern, Erc.
    + intros Hx. destruct (decide (nm = dname)) as [->|Hne]; [left|right; done].
      change (map (λ r : ref, (rf_name r, rf_commit r)) refs) with ((λ r : ref, (rf_name r, rf_commit r)) <$> refs) in Hx. apply elem_of_list_fmap in Hx as (r & [= E1 ->] & Hr).
      assert (r = rd) as ->; [|by rewrite Erc]. apply elem_of_list_lookup in Hr as [i Hi]. apply elem_of_list_lookup in Hrd as [j Hj].
      assert (i = j) as ->; [|congruence]. eapply NoDup_lookup; [exact Hnd| |]; change (map rf_name refs) with (rf_name <$> refs); rewrite list_lookup_fmap; [by rewrite Hi|rewrite Hj; cbn; congruence].
Qed.
Print Assumptions C23_all_branches_once.

Definition id40 (c : ascii) : bytes := repeat c 40.
Definition graph40 : graph := list_to_map [(id40 "a", []); (id40 "b", [id40 "a"]); (id40 "c", [id40 "a"])].
Definition refs40 : list ref := [Ref (id40 "b") (B "master") (B "Tue Nov 27 21:55:36 2018 +0100"); Ref (id40 "c") (B "topic") (B "Tue Nov 27 21:55:36 2018 +0100")].
Example C23_all_branches_hypotheses_hold : complete graph40 /\ bare (B "master") /\ Forall wf_ref refs40 /\ NoDup (map rf_name refs40) /\
  (exists r, r ∈ refs40 /\ rf_name r = B "master" /\ rf_commit r = id40 "b") /\ (forall r, r ∈ refs40 -> rf_name r <> B "HEAD" /\ is_Some (graph40 !! rf_commit r)) /\
  length (id40 "b") = 40 /\
  names_and_hashes (branch_get (fun d => Some d) false false (Ret (B "master" ++ [NL])) (fun _ => Ret (render_refs false refs40))) = Ret [(B "topic", id40 "c")].
Proof.
  split; [apply complete_check; vm_compute; reflexivity|].
  split; [apply bare_solid; repeat (apply Forall_cons; split; [reflexivity|]); by apply Forall_nil|]. split; [|split; [|split; [|split; [|split]]]].
  - assert (Hdt : date_text (B "Tue Nov 27 21:55:36 2018 +0100")).
    { split; [apply (bool_decide_unpack _); vm_compute; exact I|]. split; [discriminate|]. apply bare_git_date. }
    assert (Hns : forall n, "@"%char ∉ n -> no_separator n).
    { intros n H. split; [intros x y ->|intros x ->]; apply H; apply elem_of_app; right; left. }
    unfold refs40. do 2 (constructor; [split; [split; [done|vm_compute; reflexivity]|]; split; [done|]; split; [apply Hns; apply (bool_decide_unpack _); vm_compute; exact I|exact Hdt]|]). constructor.
  - apply (bool_decide_unpack _). vm_compute. exact I.
  - eexists. split; [left|]. done.
  - intros r Hr. apply elem_of_cons in Hr as [->|Hr]; [|apply elem_of_cons in Hr as [->|Hr]; [|by apply elem_of_nil in Hr]]; (split; [done|]); apply (bool_decide_unpack _); vm_compute; exact I.
  - reflexivity.
  - vm_compute. reflexivity.
Qed.

(** A schedule to the end: one worker, the default branch and one more branch. *)
Ltac comm i j := eapply rtc_l; [eapply (step_comm _ _ _ i j); [reflexivity|reflexivity|reflexivity|reflexivity|apply (bool_decide_unpack _); vm_compute; exact I]|]; cbn [bact bm_act bp_act bw_act bf_act bu_act bstart list_insert insert].
Ltac eof j := eapply rtc_l; [eapply (step_eof _ _ _ j); [reflexivity|reflexivity|apply (bool_decide_unpack _); vm_compute; exact I]|].
Ltac close j := eapply rtc_l; [eapply (step_close _ _ _ j); [reflexivity|reflexivity|apply (bool_decide_unpack _); vm_compute; exact I]|].
Example C23_a_schedule b0 b i : exists c, rtc (step (bact (Ret (Some b0)) None (fun _ => Ret (Some b)) [i] 1)) (branches_call None 1) c /\
  branches_returned c = Some (Ret tt) /\ branches_received c = [b0; b].
Proof.
  eexists. split.
  - unfold branches_call. comm 0 2. comm 0 2. comm 2 3. comm 0 1. comm 0 4. comm 1 4. close 1. comm 4 2. comm 2 3. eof 4. comm 4 0. close 0. eof 2. comm 2 0. close 0. eof 3. apply rtc_refl.
  - split; reflexivity.
Qed.

(** Not so with a negative Concurrency (an option of branches2 that Ripsrc leaves unset): the call returns nil without the records of the
    branches, and the feeder is left behind. *)
Theorem C23_no_workers_refuted b0 b i : exists c,
  rtc (step (bact (Ret (Some b0)) None (fun _ => Ret (Some b)) [i] (workers_for 4 (-1)))) (branches_call None (workers_for 4 (-1))) c /\
  final (bact (Ret (Some b0)) None (fun _ => Ret (Some b)) [i] (workers_for 4 (-1))) c /\
  branches_returned c = Some (Ret tt) /\ branches_received c = [b0] /\ ~ branches_ended c.
Proof.
  change (workers_for 4 (-1)) with 0. eexists. split; [|split; [|split; [|split]]].
  - unfold branches_call. comm 0 2. comm 0 2. comm 2 3. comm 0 1. close 0. eof 2. comm 2 0. close 0. eof 3. apply rtc_refl.
  - intros c Hs. change (Net.step (bact (Ret (Some b0)) None (fun _ => Ret (Some b)) [i] 0) (shape (BStop (Ret tt)) (BPSend [i]) BFStop (BUStop [b0]) [] ({[ b_res ]} ∪ ({[ b_res2 ]} ∪ ∅))) c) in Hs.
    apply step_inv in Hs. inversion Hs; subst; try done.
    match goal with H : _ ∈ _ |- _ => apply elem_of_union in H as [H|H]; [apply elem_of_singleton in H; done|]; apply elem_of_union in H as [H|H]; [apply elem_of_singleton in H; done|by apply elem_of_empty in H] end.
  - reflexivity.
  - reflexivity.
  - intros H. apply Forall_cons in H as [_ H]. by apply Forall_cons in H as [? _].
Qed.
Print Assumptions C23_no_workers_refuted.
