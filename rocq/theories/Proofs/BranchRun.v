(** * A Branches call on a commit graph: proofs for C23 *)
From Verif.Model Require Import Base GoStrings GoSort ParentsGraph Branches Net BranchPool.
From Verif.Spec Require Import CommitGraph BranchDelivery.
From Verif.Proofs Require Import BranchProofs BranchMore BranchPoolProofs.
From Coq Require Import Lia.

Lemma schedules r0 work items n : 0 < n -> works work items ->
  let act := bact (Ret r0) None work items n in
  (exists k, forall j c, nsteps (step act) j (branches_call None n) c -> j <= k) /\
  forall c, rtc (step act) (branches_call None n) c ->
    ~ crashing act c /\
    (exists rs, rs ≡ₚ records_of work items /\ branches_received c `prefix_of` option_list r0 ++ rs /\
       forall oc, branches_returned c = Some oc -> oc = Ret tt /\ branches_received c = option_list r0 ++ rs) /\
    (b_res ∈ closed c <-> exists oc, branches_returned c = Some oc) /\
    (final act c -> branches_ended c /\ branches_returned c = Some (Ret tt)).
Proof.
  intros Hn Hw act. assert (Hd : forall m, (Ret r0 : outcome (option branch)) <> Panic m) by done. split.
  - exact (bounded None (Ret r0) None work items n Hn Hw Hd).
  - intros c Hc. assert (Hok := ok_reach None (Ret r0) None work items n Hn Hw Hd c Hc).
    assert (E : first_records None (Ret r0) = option_list r0) by (by destruct r0). split; [|split; [|split]].
    + exact (no_crash None (Ret r0) None work items n c Hok).
    + destruct (received_prefix None (Ret r0) None work items n Hn c Hok) as (rs & H1 & H2 & H3). rewrite E in *. exists rs.
      split; [exact H1|]. split; [exact H2|]. intros oc Hr. destruct (H3 oc Hr) as (-> & H4 & _). split; [done|by apply H4].
    + exact (closed_iff None (Ret r0) None work items n c Hok).
    + intros Hf. exact (final_ended None (Ret r0) None work items n Hn c Hok Hf).
Qed.

(** An error before the workers are started. *)
Lemma error_schedules pre dflt names_err work items n e : 0 < n -> works work items ->
  pre = Some e \/ (pre = None /\ (dflt = Err e \/ exists r, dflt = Ret r /\ names_err = Some e)) -> (forall m, dflt <> Panic m) ->
  let act := bact dflt names_err work items n in
  (exists k, forall j c, nsteps (step act) j (branches_call pre n) c -> j <= k) /\
  forall c, rtc (step act) (branches_call pre n) c ->
    ~ crashing act c /\
    (forall b, b ∈ branches_received c -> dflt = Ret (Some b)) /\
    (forall oc, branches_returned c = Some oc -> oc = Err e) /\
    (final act c -> branches_ended c /\ branches_returned c = Some (Err e)).
Proof.
  intros Hn Hw He Hd act. assert (Ho : outcome_of pre dflt names_err = Err e).
  { unfold outcome_of. destruct He as [->|(-> & [->|(r & -> & ->)])]; done. }
  split; [exact (bounded pre dflt names_err work items n Hn Hw Hd)|].
  intros c Hc. assert (Hok := ok_reach pre dflt names_err work items n Hn Hw Hd c Hc). split; [|split; [|split]].
  - exact (no_crash pre dflt names_err work items n c Hok).
  - destruct Hok as (m & p & f & u & ws & cl & -> & Hi). rewrite received_shape.
    assert (Hq : got u = [] \/ (data pre dflt work items p f u ws /\ quiet pre dflt names_err p ws)).
    { destruct Hi as [_ _ _ _ _ _ _ _ _ _ Hph]. destruct m; cbn [phase] in Hph; try rewrite Ho in Hph.
      - left. destruct Hph as (_ & _ & _ & -> & _). done.
      - left. destruct Hph as (_ & _ & _ & _ & -> & _). done.
      - destruct Hph as (? & _). done.
      - destruct Hph as (? & _). done.
      - destruct Hph as (? & _). done.
      - right. tauto.
      - right. tauto.
      - right. tauto.
      - right. tauto.
      - done. }
    intros b Hb. destruct Hq as [Hu|[(r & H1 & H2) Hq]]; [rewrite Hu in Hb; by apply elem_of_nil in Hb|].
    destruct Hq as [(-> & Hid & _)|(_ & _ & Hq)]; [|by rewrite Ho in Hq].
    rewrite (idle_concat ws Hid) in H2. cbn [left_p app] in H2. apply Permutation_length in H2. rewrite app_length in H2.
    destruct r; [|cbn in H2; lia]. rewrite app_nil_r in H1.
    assert (Hb' : b ∈ first_records pre dflt) by (rewrite <- H1; apply elem_of_app; by left).
    unfold first_records in Hb'. destruct pre; [by apply elem_of_nil in Hb'|]. destruct dflt as [[x|]| |]; try (by apply elem_of_nil in Hb').
    apply elem_of_list_singleton in Hb' as ->. done.
  - intros oc Hr. destruct (received_prefix pre dflt names_err work items n Hn c Hok) as (rs & _ & _ & H3). destruct (H3 oc Hr) as (-> & _). exact Ho.
  - intros Hf. rewrite <- Ho. exact (final_ended pre dflt names_err work items n Hn c Hok Hf).
Qed.

(** The workers do not matter then: they are not started. *)
Section NoWorkers.
Context (pre : option bytes) (dflt : outcome (option branch)) (names_err : option bytes) (work : item -> outcome (option branch)) (items : list item) (n : nat) (e : bytes).
Context (He : pre = Some e \/ (pre = None /\ (dflt = Err e \/ exists r, dflt = Ret r /\ names_err = Some e))).
Notation act := (bact dflt names_err work items n).
Notation act' := (bact dflt names_err (fun _ => Ret None) [] n).
Definition not_started (l : blocal) : Prop :=
  match l with
  | LBM (BStartP | BStartW _ | BWait _) => False
  | LBM BStartF => pre = None
  | LBM (BDefault b) => exists x, names_err = Some x
  | LBP BPIdle => True | LBP _ => False | LBW (BWIdle _) => True | LBW _ => False | _ => True end.
Lemma idle_or (l : blocal) : l = LBP BPIdle \/ l <> LBP BPIdle.
Proof. destruct l as [m|p|f|u|w|]; try (by right). destruct p; [by left|by right..]. Qed.
Lemma same_act l : not_started l -> l <> LBP BPIdle -> act l = act' l.
Proof. destruct l as [m|p|f|u|w|]; try done; [destruct p; done|destruct w; done]. Qed.
Lemma no_start_p l v k : not_started l -> act' l <> Send b_start_p v k.
Proof. destruct l as [m|p|f|u|w|]; intros Hl E; [destruct m|destruct p|destruct f|destruct u|destruct w|]; try done; discriminate E. Qed.
Lemma no_start_p' l v k : not_started l -> act l <> Send b_start_p v k.
Proof. destruct l as [m|p|f|u|w|]; intros Hl E; [destruct m|destruct p|destruct f|destruct u|destruct w|]; try done; discriminate E. Qed.
Lemma all_lookup ls i (l : blocal) : Forall not_started ls -> ls !! i = Some l -> not_started l.
Proof. intros H Hi. rewrite Forall_lookup in H. by eapply H. Qed.
Lemma same_step c c' : Forall not_started (locals c) -> step act c c' <-> step act' c c'.
Proof.
  intros Hall. split; intros H; destruct H as [ls cl i j l l' ch v k kr Hi Hs Hj Hr Hc|ls cl j l ch kr Hj Hr Hc|ls cl i l ch k Hi Hs Hc]; cbn [locals] in Hall.
  - assert (Hl := all_lookup _ _ _ Hall Hi). assert (Hl' := all_lookup _ _ _ Hall Hj). destruct (idle_or l') as [->|N].
    { injection Hr as <- _. by apply no_start_p' in Hs. }
    eapply step_comm; [exact Hi| |exact Hj| |exact Hc]; [rewrite <- same_act; [exact Hs|exact Hl|intros ->; discriminate Hs]|rewrite <- same_act; done].
  - destruct (idle_or l) as [->|N].
    + injection Hr as <- <-. exact (step_eof act' ls cl j (LBP BPIdle) b_start_p _ Hj eq_refl Hc).
    + eapply step_eof; [exact Hj| |exact Hc]. rewrite <- same_act; [exact Hr|by eapply all_lookup|exact N].
  - eapply step_close; [exact Hi| |exact Hc]. rewrite <- same_act; [exact Hs|by eapply all_lookup|intros ->; discriminate Hs].
  - assert (Hl := all_lookup _ _ _ Hall Hi). assert (Hl' := all_lookup _ _ _ Hall Hj). destruct (idle_or l') as [->|N].
    { injection Hr as <- _. by apply no_start_p in Hs. }
    eapply step_comm; [exact Hi| |exact Hj| |exact Hc]; [rewrite same_act; [exact Hs|exact Hl|intros ->; discriminate Hs]|rewrite same_act; done].
  - destruct (idle_or l) as [->|N].
    + injection Hr as <- <-. exact (step_eof act ls cl j (LBP BPIdle) b_start_p _ Hj eq_refl Hc).
    + eapply step_eof; [exact Hj| |exact Hc]. rewrite same_act; [exact Hr|by eapply all_lookup|exact N].
  - eapply step_close; [exact Hi| |exact Hc]. rewrite same_act; [exact Hs|by eapply all_lookup|intros ->; discriminate Hs].
Qed.
Lemma stays ls i (l : blocal) : Forall not_started ls -> not_started l -> Forall not_started (<[i := l]> ls).
Proof. intros H Hl. by apply Forall_insert. Qed.
Lemma not_started_step c c' : Forall not_started (locals c) -> step act' c c' -> Forall not_started (locals c').
Proof.
  intros Hall H; destruct H as [ls cl i j l l' ch v k kr Hi Hs Hj Hr Hc|ls cl j l ch kr Hj Hr Hc|ls cl i l ch k Hi Hs Hc]; cbn [locals] in *.
  - assert (Hl := all_lookup _ _ _ Hall Hi). assert (Hl' := all_lookup _ _ _ Hall Hj). apply stays; [apply stays; [exact Hall|]|].
    + destruct l' as [m|p|f|u|w|]; [destruct m|destruct p|destruct f|destruct u|destruct w|]; try done; try discriminate Hr; injection Hr as <- <-; try (by destruct v).
      * by apply no_start_p in Hs.
      * destruct l as [m|p|f|u|w|]; [destruct m|destruct p|destruct f|destruct u|destruct w|]; try done; discriminate Hs.
    + destruct l as [m|p|f|u|w|]; [destruct m|destruct p|destruct f|destruct u|destruct w|]; try done; try discriminate Hs; injection Hs as <- <- <-; try done.
      * cbn in Hl. destruct He as [->|(_ & [->|(r & -> & ->)])]; [done|done|]. destruct r; [by eexists|done].
      * destruct Hl as [x Hx]. unfold after_default. rewrite Hx. done.
  - assert (Hl := all_lookup _ _ _ Hall Hj). apply stays; [exact Hall|].
    destruct l as [m|p|f|u|w|]; [destruct m|destruct p|destruct f|destruct u|destruct w|]; try done; try discriminate Hr; injection Hr as <- <-; done.
  - assert (Hl := all_lookup _ _ _ Hall Hi). apply stays; [exact Hall|].
    destruct l as [m|p|f|u|w|]; [destruct m|destruct p|destruct f|destruct u|destruct w|]; try done; try discriminate Hs; injection Hs as <- <-; done.
Qed.
Lemma not_started_init : Forall not_started (locals (branches_call pre n)).
Proof.
  unfold branches_call. cbn [locals]. apply Forall_cons_2; [unfold before_start; destruct pre eqn:Ep; cbn; [done|exact Ep]|]. do 3 (apply Forall_cons_2; [done|]).
  apply Forall_forall. intros l Hl. apply elem_of_list_In, in_map_iff in Hl as (i & <- & _). done.
Qed.
Lemma not_started_reach c : rtc (step act) (branches_call pre n) c -> Forall not_started (locals c) /\ rtc (step act') (branches_call pre n) c.
Proof.
  revert c. refine (rtc_ind_r _ _ _ _).
  - split; [exact not_started_init|apply rtc_refl].
  - intros c c' _ Hs [IH1 IH2]. apply same_step in Hs; [|exact IH1]. split; [by eapply not_started_step|by eapply rtc_r].
Qed.
Lemma not_started_steps j c0 c : Forall not_started (locals c0) -> nsteps (step act) j c0 c -> nsteps (step act') j c0 c.
Proof.
  intros H0 H. induction H as [c0|j c0 c1 c Hs _ IH]; [apply nsteps_O|]. apply same_step in Hs; [|exact H0].
  eapply nsteps_l; [exact Hs|]. apply IH. by eapply not_started_step.
Qed.
Lemma same_crashing c : Forall not_started (locals c) -> crashing act c -> crashing act' c.
Proof.
  intros H0 (l & Hl & Hp). exists l. split; [exact Hl|]. unfold panics in *. destruct (idle_or l) as [->|N]; [done|].
  rewrite <- same_act; [exact Hp| |exact N]. rewrite Forall_forall in H0. by apply H0.
Qed.
Lemma errors_returned : 0 < n -> (forall m, dflt <> Panic m) ->
  (exists k, forall j c, nsteps (step act) j (branches_call pre n) c -> j <= k) /\
  forall c, rtc (step act) (branches_call pre n) c ->
    ~ crashing act c /\
    (forall b, b ∈ branches_received c -> dflt = Ret (Some b)) /\
    (forall oc, branches_returned c = Some oc -> oc = Err e) /\
    (final act c -> branches_ended c /\ branches_returned c = Some (Err e)).
Proof.
  intros Hn Hd. destruct (error_schedules pre dflt names_err (fun _ => Ret None) [] n e Hn) as [[k Hk] Hall]; [intros i Hi; by apply elem_of_nil in Hi|exact He|exact Hd|]. split.
  - exists k. intros j c Hc. apply (Hk j c). apply not_started_steps; [exact not_started_init|exact Hc].
  - intros c Hc. destruct (not_started_reach c Hc) as [Hi Hc']. destruct (Hall c Hc') as (H1 & H2 & H3 & H4). split; [|split; [exact H2|split; [exact H3|]]].
    + intros Hcr. apply H1. by apply same_crashing.
    + intros Hf. apply H4. intros c' Hs. apply (Hf c'). by apply same_step.
Qed.
End NoWorkers.

(** ** On a commit graph *)
Lemma complete_closed g d : complete g -> is_Some (g !! d) -> closed_from g d.
Proof. intros Hc Hd x Hx. unfold reaches in Hx. induction Hx as [|x y z Hxy _ IH]; [done|]. apply IH. by eapply Hc. Qed.

Lemma records_app work l1 l2 : records_of work (l1 ++ l2) = records_of work l1 ++ records_of work l2.
Proof. unfold records_of. induction l1 as [|x l1 IH]; [done|]. cbn. destruct (work x) as [[b|]| |]; cbn; by rewrite IH. Qed.

Section Graph.
Context (rng : item -> list bytes -> list bytes) (sha : bytes -> bytes) (g : graph) (es : list (bytes * list bytes)) (d : bytes).
Context (Hrng : forall i, any_order (rng i)) (Hes : es ≡ₚ map_to_list g) (Hg : complete g) (Hd : is_Some (g !! d)).
Definition branch_work (i : item) : outcome (option branch) := branch_info (rng i) sha g (children_from_parents es) d i.1 i.2.

Lemma work_known i : is_Some (g !! i.2) -> exists br, branch_work i = Ret (Some br) /\ br_name br = i.1 /\ br_head br = i.2 /\ (br_pr br = true <-> i.1 = []) /\ br_default br = false.
Proof.
  intros Hi. destruct (branch_info_spec (rng i) sha g es d i.2 i.1 (Hrng i) Hes Hg Hd Hi) as (br & Hbr & _ & B1 & B2 & B3 & B4 & _). exists br.
  split; [exact Hbr|]. split; [exact B2|]. split; [exact B1|]. split; [exact B3|exact B4].
Qed.
Lemma work_unknown s : g !! s = None -> branch_work ([], s) = Ret None.
Proof. intros Hs. exact (unknown_pr _ sha g _ d s Hs). Qed.

(** The records of known heads. *)
Lemma records_known l : Forall (fun i : item => is_Some (g !! i.2)) l ->
  map (fun r => (br_name r, br_head r)) (records_of branch_work l) = l /\
  Forall (fun r => branch_work (br_name r, br_head r) = Ret (Some r) /\ (br_pr r = true <-> br_name r = []) /\ br_default r = false) (records_of branch_work l).
Proof.
  induction 1 as [|i l Hi _ [IH1 IH2]]; [split; [reflexivity|constructor]|]. destruct (work_known i Hi) as (br & E & E1 & E2 & E3 & E4).
  assert (records_of branch_work (i :: l) = br :: records_of branch_work l) as -> by (unfold records_of; cbn; by rewrite E).
  destruct i as [nm hd]. cbn in E1, E2, E3. split.
  - cbn. rewrite IH1. by rewrite E1, E2.
  - constructor; [|exact IH2]. rewrite E1, E2. split; [exact E|]. split; [exact E3|exact E4].
Qed.
Definition known (l : list bytes) : list bytes := filter (fun s => is_Some (g !! s)) l.
Lemma records_prs l : records_of branch_work (map (fun s => ([], s)) l) = records_of branch_work (map (fun s => ([], s)) (known l)).
Proof.
  induction l as [|s l IH]; [done|]. unfold known. destruct (decide (is_Some (g !! s))) as [Hs|Hs].
  - rewrite filter_cons_True by done. cbn [map]. unfold records_of in *. cbn. change (filter (λ s0, is_Some (g !! s0)) l) with (known l). destruct (branch_work ([], s)) as [[b|]| |]; by rewrite <- IH.
  - rewrite filter_cons_False by done. cbn [map]. rewrite <- eq_None_not_Some in Hs. unfold records_of in *. cbn. rewrite (work_unknown s Hs). exact IH.
Qed.

Lemma records_of_items (po : list bytes -> list bytes) (names : list item) (prs : list bytes) : any_order po ->
  Forall (fun i : item => i.1 <> [] /\ is_Some (g !! i.2)) names ->
  works branch_work (work_items po false names prs) /\
  exists shas, lists_exactly shas (fun s => s ∈ prs /\ is_Some (g !! s)) /\
    map (fun r => (br_name r, br_head r)) (records_of branch_work (work_items po false names prs)) = names ++ map (fun s => ([], s)) shas /\
    Forall (fun r => branch_work (br_name r, br_head r) = Ret (Some r) /\ (br_pr r = true <-> br_name r = []) /\ br_default r = false)
      (records_of branch_work (work_items po false names prs)).
Proof.
  intros Hpo Hnames. unfold work_items. split.
  - intros i Hi. apply elem_of_app in Hi as [Hi|Hi].
    + rewrite Forall_forall in Hnames. destruct (Hnames i Hi) as [_ Hk]. destruct (work_known i Hk) as (br & E & _). by eexists.
    + change (map (λ sha0 : bytes, ([], sha0)) (unique_strings po prs)) with ((λ sha0 : bytes, ([] : bytes, sha0)) <$> unique_strings po prs) in Hi.
      apply elem_of_list_fmap in Hi as (s & -> & _). destruct (g !! s) eqn:E.
      * destruct (work_known ([], s)) as (br & E' & _); [cbn; by rewrite E|by eexists].
      * eexists. by apply work_unknown.
  - exists (known (unique_strings po prs)). split; [split|].
    + apply NoDup_filter. unfold unique_strings. rewrite (Hpo _). apply NoDup_remove_dups.
    + intros s. unfold known. rewrite elem_of_list_filter. unfold unique_strings. rewrite (Hpo _), elem_of_remove_dups. tauto.
    + rewrite records_app, records_prs. rewrite <- records_app.
      apply records_known. apply Forall_app. split; [eapply Forall_impl; [exact Hnames|]; by intros ? [_ ?]|].
      apply Forall_forall. intros i Hi. change (map (λ sha0 : bytes, ([], sha0)) (known (unique_strings po prs))) with ((λ sha0 : bytes, ([] : bytes, sha0)) <$> known (unique_strings po prs)) in Hi.
      apply elem_of_list_fmap in Hi as (s & -> & Hs). unfold known in Hs. by apply elem_of_list_filter in Hs as [? _].
Qed.
End Graph.
