(** * Lemmas for C80: from the answers of git to the records of branches *)
From Verif.Model Require Import Base GoStrings GoSort IncBlame ParentsGraph Process CommitMeta Branches BranchMeta Net BranchPool LogArgs Api BranchesApi.
From Verif.Spec Require Import Text GitLog CommitGraph History Selection Refs BranchDelivery BranchAnswers.
From Verif.Proofs Require Import BranchProofs BranchMore BranchPoolProofs BranchRun SelectionProofs ApiProofs.
From Verif.Props Require Import GraphProps RefProps BranchPoolProps SelectionProps.
From Coq Require Import Lia.

(** ** A record made from a graph is right *)
Lemma info_right rng sha g es d name b r : any_order rng -> es ≡ₚ map_to_list g -> complete g -> acyclic g -> is_Some (g !! d) -> is_Some (g !! b) ->
  [] ∉ (map_to_list g).*1 -> branch_info rng sha g (children_from_parents es) d name b = Ret (Some r) ->
  br_head r = b /\ br_name r = name /\ branch_right sha g d r.
Proof.
  intros H1 H2 H3 Ha H4 H5 Hnil E.
  destruct (branch_info_spec rng sha g es d b name H1 H2 H3 H4 H5)
    as (br & Hbr & _ & B1 & B2 & B3 & B4 & B5 & _ & [l6 B6] & B7 & [l8 B8] & _ & _ & _ & _ & B9 & B10 & B11).
  rewrite E in Hbr. injection Hbr as <-. split; [exact B1|]. split; [exact B2|].
  split; rewrite ?B1.
  - intros Hn. destruct (C15_unmerged_commits rng sha g es d b name) as (br & Hbr & HX & _); [done..|]. rewrite E in Hbr. by injection Hbr as <-.
  - intros Hm. destruct (C16_merged_commits rng sha g es d b name) as (br & Hbr & HX & _); [done..|]. rewrite E in Hbr. by injection Hbr as <-.
  - rewrite B6. apply last_snoc.
  - by rewrite B8.
  - done.
  - done.
  - destruct (C19_branch_points rng sha g es d b name) as (br & Hbr & HX); [done..|]. rewrite E in Hbr. injection Hbr as <-. unfold left_at. rewrite B1. exact HX.
  - destruct (C21_merge_commit rng sha g es d b name) as (br & Hbr & _ & HX & _); [done..|]. rewrite E in Hbr. by injection Hbr as <-.
  - intros Hm Hne. destruct (C21_merge_commit rng sha g es d b name) as (br & Hbr & _ & _ & HX & HY); [done..|]. rewrite E in Hbr. injection Hbr as <-.
    apply HX. by apply HY.
  - intros Hx. destruct (decide (br_merged r = true)) as [Hm|Hm]; [apply B9, B5, Hm|]. destruct Hx as [Hx|Hx]; [by apply B5 in Hx|]. apply B10; [|exact Hx]. intros Hr. by apply Hm, B5.
  - intros Hn Hs Hl. destruct (C20_behind_count_partial rng sha g es d b name) as (br & counted & Hbr & HX & _ & _ & HY); [done..|]. rewrite E in Hbr. injection Hbr as <-.
    exists counted. split; [by apply HY|exact HX].
  - by rewrite B2.
  - by rewrite B2.
  - done.
Qed.

(** ** The part of the graph git log shows *)
Section Part.
Context (g : graph) (cs : list bytes).
Definition part : graph := list_to_map (map (fun c => (c, parents g c)) cs).
Let H0 : history := History g (fun _ => ∅) (fun _ _ => []) (fun _ => CMeta [] [] [] 0).
Context (Hnd : NoDup cs) (Hin : forall c, c ∈ cs -> is_Some (g !! c)) (Hcl : forall c p, c ∈ cs -> parent g c p -> p ∈ cs).
Lemma part_some c : is_Some (part !! c) <-> c ∈ cs.
Proof. exact (cut_some H0 cs Hnd Hin c). Qed.
Lemma part_parent c p : parent part c p <-> c ∈ cs /\ parent g c p.
Proof. exact (cut_parent H0 cs Hnd Hin c p). Qed.
Lemma part_parents c : c ∈ cs -> parents part c = parents g c.
Proof. exact (cut_hparents H0 cs Hnd Hin c). Qed.
Lemma part_in c x : c ∈ cs -> reaches g c x -> x ∈ cs.
Proof. intros Hc Hr. induction Hr as [c|c y x Hp _ IH]; [done|]. apply IH. by eapply Hcl. Qed.
Lemma part_avoiding (P P' : bytes -> Prop) c x : c ∈ cs -> (forall y, y ∈ cs -> P y <-> P' y) -> reaches_avoiding part P c x <-> reaches_avoiding g P' c x.
Proof.
  intros Hc HP. split; intros Hr.
  - induction Hr as [c|c y x [Hp Hn] _ IH]; [apply rtc_refl|]. apply part_parent in Hp as [_ Hp]. eapply rtc_l; [split; [exact Hp|by rewrite <- HP]|]. apply IH. by eapply Hcl.
  - induction Hr as [c|c y x [Hp Hn] _ IH]; [apply rtc_refl|]. eapply rtc_l; [split; [apply part_parent; by split|by rewrite HP]|]. apply IH. by eapply Hcl.
Qed.
Lemma part_reaches c x : c ∈ cs -> reaches part c x <-> reaches g c x.
Proof.
  intros Hc. split; [exact (cut_reaches_back H0 cs Hnd Hin c x)|]. exact (cut_reaches H0 cs Hnd Hin Hcl c x Hc).
Qed.
Lemma part_ancestor c x : c ∈ cs -> ancestor part c x <-> ancestor g c x.
Proof.
  intros Hc. split; intros Hr.
  - induction Hr as [c x Hp|c y x Hp _ IH]; apply part_parent in Hp as [_ Hp]; [by apply tc_once|]. eapply tc_l; [exact Hp|]. apply IH. by eapply Hcl.
  - induction Hr as [c x Hp|c y x Hp _ IH]; [apply tc_once, part_parent; by split|]. eapply tc_l; [apply part_parent; by split|]. apply IH. by eapply Hcl.
Qed.
Lemma part_complete : complete part.
Proof. intros x y Hp. apply part_parent in Hp as [Hx Hp]. apply part_some. by eapply Hcl. Qed.
Lemma part_acyclic : acyclic g -> acyclic part.
Proof.
  intros Ha c Hc. destruct (decide (c ∈ cs)) as [Hi|Hi]; [by apply (Ha c), part_ancestor|]. apply Hi.
  unfold ancestor in Hc. inversion Hc as [? ? Hp|? y ? Hp ?]; subst; by apply part_parent in Hp as [? _].
Qed.

Lemma lists_ext l (P Q : bytes -> Prop) : (forall x, P x <-> Q x) -> lists_exactly l P -> lists_exactly l Q.
Proof. intros HPQ [H1 H2]. split; [done|]. intros x. by rewrite H2. Qed.
Lemma part_right sha d r : d ∈ cs -> br_head r ∈ cs -> branch_right sha part d r -> branch_right sha g d r.
Proof.
  intros Hd Hb HR. pose proof HR as [R1 R2 R3 R4 R5 R6 R7 R8 R9 R10 R11 R12 R13 R14].
  assert (Er : forall x, reaches part d x <-> reaches g d x) by (intros x; by apply part_reaches).
  assert (Eb : forall x, reaches part (br_head r) x <-> reaches g (br_head r) x) by (intros x; by apply part_reaches).
  assert (Ea : forall x, reaches_avoiding part (fun y => y = br_head r) d x <-> reaches_avoiding g (fun y => y = br_head r) d x) by (intros x; by apply part_avoiding).
  assert (Hc : forall c, c ∈ br_commits r -> c ∈ cs).
  { intros c Hcr. destruct (br_merged r) eqn:Em.
    - destruct (R2 (proj1 R6 eq_refl)) as [_ H2]. apply H2 in Hcr as [->|[Hx _]]; [done|]. apply (part_in (br_head r)); [done|]. apply Eb. by apply tc_rtc.
    - destruct R1 as [_ H2]; [intros Hx; by apply R6 in Hx|]. apply H2 in Hcr as [Hx _]. apply (part_in (br_head r)); [done|]. by apply Eb. }
  assert (El : forall x, left_at part d r x <-> left_at g d r x).
  { intros x. unfold left_at. rewrite Ea. split; intros (H1 & c & H2 & H3); (split; [done|]); exists c; (split; [done|]); [by apply part_parent in H3 as [_ ?]|apply part_parent; split; [by apply Hc|done]]. }
  assert (Hl : forall x, left_at g d r x -> x ∈ cs).
  { intros x (_ & c & H2 & H3). eapply Hcl; [by apply Hc|done]. }
  split; try done.
  - intros Hn. rewrite <- Er in Hn. apply (lists_ext _ _ _) with (2 := R1 Hn). intros x. by rewrite Er, Eb.
  - intros Hm. rewrite <- Er in Hm. apply (lists_ext _ _ _) with (2 := R2 Hm). intros x. by rewrite Ea, part_ancestor.
  - by rewrite <- Er.
  - destruct R7 as [R7 R7']. split; [done|]. apply (lists_ext _ _ _) with (2 := R7'). intros x. rewrite El. split; intros [H1 H2]; (split; [done|]); intros (y & Hy & Hy2); apply H2; exists y.
    + split; [by apply El|]. apply part_ancestor; [by apply Hl|done].
    + split; [by apply El|]. apply part_ancestor in Hy2; [done|by apply Hl].
  - intros Hm Hne. destruct (R9 Hm Hne) as (H1 & H2 & H3). apply part_parent in H1 as [_ H1]. rewrite Er in H2. split; [done|]. split; [done|].
    intros c Hcp Hcr. apply H3; [apply part_parent; split; [by apply (part_in d)|done]|by apply Er].
  - rewrite <- Er. exact R10.
  - intros Hn (x & Hx1 & Hx2) Hlin. destruct R11 as (missing & M1 & M2); [by rewrite Er|exists x; by rewrite Eb, Er| |].
    + intros y Hy. apply Er in Hy. rewrite part_parents; [by apply Hlin|by apply (part_in d)].
    + exists missing. split; [|done]. apply (lists_ext _ _ _) with (2 := M1). intros y. by rewrite Er, Eb.
Qed.
End Part.

(** ** Reading the graph *)
Lemma graph_of_lines g cs order : NoDup cs -> (forall c, c ∈ cs -> is_Some (g !! c)) -> (forall c p, c ∈ cs -> parent g c p -> p ∈ cs) ->
  (forall c, c ∈ cs -> commit_id c) -> (forall c, c ∈ cs -> (N.of_nat (length (graph_line (c, parents g c))) < 1000000)%N) ->
  graph_read order (render_graph (map (fun c => (c, parents g c)) cs)) = Ret (part g cs, children_from_parents (order (part g cs))).
Proof.
  intros Hnd Hin Hcl Hid Hlen. set (h := map (fun c => (c, parents g c)) cs).
  assert (Ek : h.*1 = cs).
  { subst h. change (((fun c => (c, parents g c)) <$> cs).*1 = cs). rewrite <- list_fmap_compose. change ((fun x : bytes => x) <$> cs = cs). apply list_fmap_id. }
  destruct (C12_parents_recovered h) as (m & Em1 & Em2).
  { split; [|by rewrite Ek]. apply Forall_forall. intros e He. apply elem_of_list_In, in_map_iff in He as (c & <- & Hc%elem_of_list_In). cbn [fst snd].
    split; [by apply Hid|]. apply Forall_forall. intros p Hp. apply Hid. by eapply Hcl. }
  { apply Forall_forall. intros l Hl. apply elem_of_list_In, in_map_iff in Hl as (e & <- & He). apply in_map_iff in He as (c & <- & Hc%elem_of_list_In). by apply Hlen. }
  assert (Em : m = part g cs).
  { apply map_eq. intros c. unfold part. fold h. destruct (m !! c) as [ps|] eqn:E.
    - symmetry. apply elem_of_list_to_map; [by rewrite Ek|]. by apply Em2.
    - symmetry. apply not_elem_of_list_to_map_1. intros (e & Ee & He)%elem_of_list_fmap. destruct e as [c' ps]. cbn in Ee. subst c'. apply Em2 in He. congruence. }
  unfold graph_read. rewrite Em1. cbn [obind]. by rewrite Em.
Qed.

Lemma nodup_map_filter {A} (f : A -> bytes) (P : A -> Prop) `{forall x, Decision (P x)} l : NoDup (f <$> l) -> NoDup (f <$> filter P l).
Proof.
  induction l as [|x l IH]; [done|]. rewrite fmap_cons. intros [H1 H2]%NoDup_cons. rewrite filter_cons. destruct (decide (P x)); [|by apply IH].
  rewrite fmap_cons. apply NoDup_cons. split; [|by apply IH]. intros (y & E & Hy)%elem_of_list_fmap. apply elem_of_list_filter in Hy as [_ Hy]. apply H1. rewrite E. by apply elem_of_list_fmap_1.
Qed.

(** ** What the answers come to *)
Lemma branch_facts {T} parse_date graph_order git repo_dir o R dname refs :
  @branches_usable T parse_date R dname refs -> branch_answers R dname refs (bo_origin o) git -> ro_all (bo_run o) = true ->
  exists cs names, NoDup cs /\ (forall x, x ∈ cs <-> exists t, (t = g_head R \/ t ∈ g_tips R) /\ reaches (g_parents R) t x) /\
    (forall c, c ∈ cs -> is_Some (g_parents R !! c)) /\ (forall c p, c ∈ cs -> parent (g_parents R) c p -> p ∈ cs) /\ g_head R ∈ cs /\
    let gp := part (g_parents R) cs in complete gp /\ is_Some (gp !! g_head R) /\
    read_graph graph_order git (bo_run o) = Ret (gp, children_from_parents (graph_order gp)) /\ prepare git repo_dir = Ret tt /\
    get_default (git NoContext head_name_args) (git NoContext head_commit_args) = Ret (dname, g_head R) /\
    names_and_hashes (branch_get parse_date (bo_origin o) false (git NoContext default_name_args) (fun u => git NoContext (refs_args u))) = Ret names /\
    names ≡ₚ map (fun r => (rf_name r, rf_commit r)) (filter (fun r => rf_name r <> dname /\ rf_name r <> B "HEAD") refs) /\
    Forall (fun i : item => i.1 <> [] /\ is_Some (gp !! i.2)) names.
Proof.
  intros HU HA Hall. destruct HU as [U1 U2 U3 U4 [U5 U6] U7 [U8 [U8b U9]] [U10 U11] U12 U13].
  destruct HA as [A1 A2 A3 (cs & [Hnd Hcs] & A4) _ A6].
  set (g := g_parents R) in *. set (d := g_head R) in *.
  assert (Hsel : forall x, x ∈ cs <-> exists t, (t = d \/ t ∈ g_tips R) /\ reaches g t x) by (intros x; rewrite Hcs; apply shows_all).
  assert (Hg : forall t, t = d \/ t ∈ g_tips R -> is_Some (g !! t)) by (intros t [->|Ht]; [done|by apply U7]).
  assert (Hin : forall c, c ∈ cs -> is_Some (g !! c)).
  { intros c Hc. apply Hsel in Hc as (t & Ht & Hr). exact (complete_closed g t U1 (Hg t Ht) c Hr). }
  assert (Hcl : forall c p, c ∈ cs -> parent g c p -> p ∈ cs).
  { intros c p Hc Hp. apply Hsel in Hc as (t & Ht & Hr). apply Hsel. exists t. split; [done|]. eapply rtc_r; done. }
  assert (Htip : forall t, t = d \/ t ∈ g_tips R -> t ∈ cs) by (intros t Ht; apply Hsel; exists t; split; [done|apply rtc_refl]).
  assert (Hd : d ∈ cs) by (apply Htip; by left).
  set (gp := part g cs). set (es := graph_order gp).
  assert (Hread : read_graph graph_order git (bo_run o) = Ret (gp, children_from_parents es)).
  { unfold read_graph, exec_piped, graph_log_args, graph_revs. rewrite Hall. cbn [app]. rewrite A4. cbn [obind]. apply graph_of_lines; [exact Hnd|exact Hin|exact Hcl|intros; by apply U3, Hin|intros; by apply U4, Hin]. }
  assert (Hprep : prepare git repo_dir = Ret tt).
  { assert (Hid : commit_id d) by (by apply U3). unfold prepare, head_id. rewrite A1. cbv zeta. rewrite (trim_id _ Hid).
    rewrite (bool_decide_false (length d <> 40)) by (rewrite U6; tauto). rewrite (bool_decide_false (d = [])); [done|]. by destruct Hid. }
  assert (Hdef : get_default (git NoContext head_name_args) (git NoContext head_commit_args) = Ret (dname, d)).
  { unfold head_name_args, head_commit_args. rewrite A1, A2. apply C24_default_branch; [exact U8|exact U8b|exact U9|by apply U3|exact U6]. }
  assert (Hpc : complete gp) by (by apply part_complete).
  assert (Hpd : is_Some (gp !! d)) by (by apply part_some).
  destruct (C24_branch_list_partial parse_date (bo_origin o) false dname refs (fun u => git NoContext (refs_args u)) U8 U8b U10 U11 U12) as (res & Eres & N1 & N2 & _).
  { unfold refs_args. apply A6. }
  set (names := map (fun r => (bn_name r, bn_commit r)) res).
  assert (Enames : names_and_hashes (branch_get parse_date (bo_origin o) false (git NoContext default_name_args) (fun u => git NoContext (refs_args u))) = Ret names).
  { unfold default_name_args. rewrite A3. unfold names_and_hashes. by rewrite Eres. }
  set (kept := filter (fun r => rf_name r <> dname /\ rf_name r <> B "HEAD") refs).
  assert (Hperm : names ≡ₚ map (fun r => (rf_name r, rf_commit r)) kept).
  { apply NoDup_Permutation.
    - apply (NoDup_fmap_1 fst). change (NoDup (map fst names)). unfold names. rewrite map_map. exact N2.
    - apply (NoDup_fmap_1 fst). change (NoDup (map fst (map (fun r => (rf_name r, rf_commit r)) kept))). rewrite map_map. change (NoDup (rf_name <$> kept)). 
      unfold kept. apply nodup_map_filter. exact U11.
    - intros [nm cm]. unfold names. change (map (fun r : branch_ref T => (bn_name r, bn_commit r)) res) with ((fun r : branch_ref T => (bn_name r, bn_commit r)) <$> res).
      change (map (fun r => (rf_name r, rf_commit r)) kept) with ((fun r => (rf_name r, rf_commit r)) <$> kept). rewrite !elem_of_list_fmap. split.
      + intros ([nm' cm' t] & [= -> ->] & Hr). apply N1 in Hr as (date & Hr & _ & Hh & Hi). exists (Ref cm' nm' date). split; [done|]. unfold kept. apply elem_of_list_filter.
        split; [|exact Hr]. cbn. split; [by destruct Hi|exact Hh].
      + intros ([cm' nm' date] & [= -> ->] & Hr). unfold kept in Hr. apply elem_of_list_filter in Hr as [[H1 H2] Hr]. destruct (U12 _ Hr) as [t Ht]. exists (BranchRef nm' cm' t). split; [done|].
        apply N1. exists date. split; [exact Hr|]. split; [exact Ht|]. split; [exact H2|by right]. }
  assert (Hnames : Forall (fun i : item => i.1 <> [] /\ is_Some (gp !! i.2)) names).
  { rewrite Hperm. apply Forall_forall. intros i Hi. apply elem_of_list_In, in_map_iff in Hi as (r & <- & Hr%elem_of_list_In). unfold kept in Hr. apply elem_of_list_filter in Hr as [_ Hr].
    rewrite Forall_forall in U10. destruct (U10 r Hr) as (_ & [Hn _] & _). cbn [fst snd]. split; [exact Hn|]. apply part_some; [exact Hnd|exact Hin|]. apply Htip. right. by apply U13. }
  exists cs, names. split; [exact Hnd|]. split; [exact Hsel|]. split; [exact Hin|]. split; [exact Hcl|]. split; [exact Hd|]. split; [exact Hpc|]. split; [exact Hpd|].
  split; [exact Hread|]. split; [exact Hprep|]. split; [exact Hdef|]. split; [exact Enames|]. split; [exact Hperm|exact Hnames].
Qed.
