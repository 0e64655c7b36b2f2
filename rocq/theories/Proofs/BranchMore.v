(** * C18-C22: more about branch records *)
From Verif.Model Require Import Base GoStrings GoSort ParentsGraph Branches.
From Verif.Spec Require Import CommitGraph.
From Verif.Proofs Require Import SortLemmas Dfs ParentsGraphProofs BranchProofs.
From Coq Require Import Lia.

(** ** behindBranch *)
Lemma stop_list_exact g (X : list bytes) h :
  exists l, dfs (graph_fuel g) (fun x => Some (if decide (x ∈ X) then [] else gparents g x)) [] h = Ret l /\
    lists_exactly l (reaches_avoiding g (fun y => y ∈ X) h).
Proof.
  assert (forall x y, edge (fun x => Some (if decide (x ∈ X) then [] else gparents g x)) x y <-> parent g x y /\ x ∉ X) as He.
  { intros x y. unfold edge. destruct (decide (x ∈ X)).
    - split; [intros (? & [= <-] & ?); set_solver|by intros [_ ?]].
    - split; [intros (? & [= <-] & ?); done|intros [? _]; by eexists]. }
  destruct (dfs_graph g (fun x => Some (if decide (x ∈ X) then [] else gparents g x)) h) as [(l & H & P)|(_ & n & _ & [=])].
  { intros x ps E y Hy. apply (He x y). by exists ps. }
  exists l. split; [done|]. apply dfs_exact in P as [P1 P2]. split; [done|]. intros x. rewrite P2.
  split; apply rtc_subrel; intros u v; apply He.
Qed.

(** Where a branch meets the default branch, or the branch itself: what reachableFromBranchStopOnDefault collects. *)
Definition meets (g : graph) (d b : bytes) (x : bytes) : Prop := reaches_avoiding g (reaches g d) b x.

Lemma avoiding_ext g (P Q : bytes -> Prop) x y : (forall z, P z <-> Q z) -> reaches_avoiding g P x y -> reaches_avoiding g Q x y.
Proof. intros H. apply rtc_subrel. intros u v [? Hu]. split; [done|]. by rewrite <-H. Qed.

Lemma behind_spec g R b d : lists_exactly R (reaches g d) ->
  exists counted, behind_branch g R b d = Ret (length counted) /\
    lists_exactly counted (fun x => reaches_avoiding g (meets g d b) d x /\ ~ meets g d b x).
Proof.
  intros [_ HR]. unfold behind_branch, reachable_stop.
  destruct (stop_list_exact g R b) as (rfb & -> & F1 & F2). cbn [obind].
  destruct (stop_list_exact g rfb d) as (dn & -> & D1 & D2). cbn [obind].
  eexists. split; [reflexivity|].
  assert (forall x, x ∈ rfb <-> meets g d b x) as HF.
  { intros x. rewrite F2. split; apply avoiding_ext; intros z; by rewrite HR. }
  split; [by apply NoDup_filter|]. intros x. rewrite elem_of_list_filter, D2, HF. split.
  - intros [H1 H2]. split; [|done]. revert H2. by apply avoiding_ext.
  - intros [H1 H2]. split; [done|]. revert H1. apply avoiding_ext. intros z. by rewrite HF.
Qed.

(** Everything missing from the branch is counted. *)
Lemma missing_counted g d b x : reaches g d x -> ~ reaches g b x -> reaches_avoiding g (meets g d b) d x /\ ~ meets g d b x.
Proof.
  intros Hr Hb. split; [|intros H; by apply avoiding_reaches in H].
  revert x Hr Hb. refine (rtc_ind_r _ _ _ _).
  - intros _. apply rtc_refl.
  - intros y z Hdy Hyz IH Hbz. assert (~ reaches g b y) as Hby. { intros H. apply Hbz. eapply rtc_r; done. }
    eapply rtc_r; [by apply IH|]. split; [done|]. intros H. by apply avoiding_reaches in H.
Qed.
(** A path from an unmerged head to a default-branch commit passes a commit where the branch meets the default branch. *)
Lemma meets_before g d b x : reaches g b x -> reaches g d x -> exists y, meets g d b y /\ reaches g d y /\ reaches g y x.
Proof.
  intros Hb Hd. enough (forall y, reaches g y x -> meets g d b y -> exists y', meets g d b y' /\ reaches g d y' /\ reaches g y' x) as K.
  { apply (K b); [done|apply rtc_refl]. }
  refine (rtc_ind_l _ _ _ _).
  - intros Hx. exists x. split_and!; [done|done|apply rtc_refl].
  - intros y z Hyz Hzx IH Hy. destruct (reachable_exact g d) as (R & _ & _ & HR).
    destruct (decide (y ∈ R)) as [Hin|Hin]; rewrite HR in Hin.
    + exists y. split_and!; [done|done|]. eapply rtc_l; done.
    + apply IH. eapply rtc_r; [exact Hy|]. done.
Qed.
(** On a linear default history the count is exact. *)
Definition linear_from (g : graph) (d : bytes) : Prop := forall x, reaches g d x -> length (parents g x) <= 1.
Lemma linear_comparable g d x y : linear_from g d -> reaches g d x -> reaches g d y -> reaches g x y \/ reaches g y x.
Proof.
  intros Hl Hx. revert x Hx. refine (rtc_ind_r _ _ _ _); [by left|].
  intros u v Hdu Huv IH Hy. destruct (IH Hy) as [H|H].
  - apply rtc_inv in H as [->|(w & Huw & Hwy)]; [right; by apply rtc_once|].
    assert (v = w) as ->; [|by left]. specialize (Hl u Hdu). unfold parent in *.
    destruct (parents g u) as [|p [|q l]]; cbn in Hl; [set_solver| |lia]. set_solver.
  - right. eapply rtc_r; done.
Qed.
Lemma linear_exact g d b x : acyclic g -> linear_from g d -> 
  reaches_avoiding g (meets g d b) d x -> ~ meets g d b x -> ~ reaches g b x.
Proof.
  intros Hac Hl Hx Hm Hb. pose proof (avoiding_reaches _ _ _ _ Hx) as Hdx.
  destruct (meets_before g d b x Hb Hdx) as (y & Hy & Hdy & Hyx).
  (* the path from d to x avoiding [meets] must pass y *)
  enough (forall z, reaches_avoiding g (meets g d b) d z -> ~ meets g d b z -> reaches g y z -> False) as K by by apply (K x).
  refine (rtc_ind_r _ _ _ _).
  - intros Hnm Hyd. assert (y = d) as ->; [|done].
    apply rtc_tc in Hdy as [->|Hdy]; [done|]. exfalso. apply (Hac d). eapply tc_rtc_r; done.
  - intros u v Hdu [Huv Hum] IH Hvm Hyv. apply IH; [done|].
    pose proof (avoiding_reaches _ _ _ _ Hdu) as Hdu'.
    destruct (linear_comparable g d y u Hl Hdy Hdu') as [?|Huy]; [done|].
    apply rtc_inv in Huy as [->|(w & Huw & Hwy)]; [done|].
    assert (v = w) as ->.
    { specialize (Hl u Hdu'). unfold parent in *. destruct (parents g u) as [|p [|q l]]; cbn in Hl; [set_solver| |lia]. set_solver. }
    exfalso. assert (y = w) as ->; [|done]. apply rtc_tc in Hwy as [?|Hwy]; [done|].
    exfalso. apply (Hac w). eapply tc_rtc_r; done.
Qed.

(** ** getMergeCommit *)
Lemma merge_commit_spec (g : graph) es R d b : es ≡ₚ map_to_list g -> lists_exactly R (reaches g d) -> is_Some (g !! b) ->
  exists mc, get_merge_commit (children_from_parents es) R b = Ret mc /\
    ((mc = [] /\ forall c, parent g c b -> ~ reaches g d c) \/
     (parent g mc b /\ reaches g d mc /\ forall c, parent g c b -> reaches g d c -> bytes_le mc c)).
Proof.
  intros Hes [_ HR] Hb. destruct (children_spec g es Hes) as [C1 C2]. unfold get_merge_commit.
  destruct (children_from_parents es !! b) as [cs|] eqn:E.
  2:{ assert (is_Some (children_from_parents es !! b)) as [? Hs] by (apply C1; by left).
    discriminate (eq_trans (eq_sym Hs) E). }
  destruct (C2 _ _ E) as [Hs Ht].
  assert (forall c, c ∈ cs <-> parent g c b) as Hcs.
  { intros c. unfold parent. by rewrite <-!times_elem, Ht. }
  assert (forall c, c ∈ filter (fun c => c ∈ R) cs <-> parent g c b /\ reaches g d c) as Hf.
  { intros c. rewrite elem_of_list_filter, HR, Hcs. tauto. }
  assert (StronglySorted bytes_le (filter (fun c => c ∈ R) cs)) as Hsf.
  { clear -Hs. induction Hs as [|a l Hl IH Ha]; [constructor|]. rewrite filter_cons. case_decide; [|done].
    constructor; [done|]. apply Forall_forall. intros x [_ Hx]%elem_of_list_filter. rewrite Forall_forall in Ha. by apply Ha. }
  eexists. split; [reflexivity|]. destruct (filter (fun c => c ∈ R) cs) as [|c l].
  - left. split; [done|]. intros c Hc Hr. assert (c ∈ @nil bytes) by (by apply Hf). set_solver.
  - right. destruct (proj1 (Hf c)) as [H1 H2]; [set_solver|]. split_and!; [done|done|].
    intros c' H1' H2'. assert (c' ∈ c :: l) as Hin by (by apply Hf).
    apply elem_of_cons in Hin as [->|Hin]; [apply bytes_le_refl|].
    inversion Hsf as [|? ? _ Ha]; subst. rewrite Forall_forall in Ha. by apply Ha.
Qed.

(** ** getAllCommits *)
Lemma all_commits_spec g head :
  (closed_from g head /\ exists cs, get_all_commits g head = Ret cs /\ lists_exactly cs (reaches g head) /\ (exists l, cs = l ++ [head]) /\
     (forall l1 n l2, cs = l1 ++ n :: l2 -> n <> head -> exists m, m ∈ l2 /\ parent g m n)) \/
  (~ closed_from g head /\ get_all_commits g head = Panic (B "commit not found in tree")).
Proof.
  set (next := fun h => (fun ps => rev ps) <$> g !! h).
  assert (forall x y, edge next x y <-> parent g x y) as He.
  { intros x y. unfold edge, next, parent, parents. destruct (g !! x) as [ps|]; cbn.
    - split.
      + intros (? & [= <-] & Hy). apply elem_of_list_In. rewrite in_rev. by apply elem_of_list_In.
      + intros Hy. eexists. split; [done|]. apply elem_of_list_In. rewrite <-in_rev. by apply elem_of_list_In.
    - split; [by intros (?&?&?)|set_solver]. }
  assert (sub_next g next) as Hsub by (intros x ps E y Hy; apply He; by exists ps).
  assert (forall x, rtc (edge next) head x <-> reaches g head x) as Hr.
  { intros x. split; apply rtc_subrel; intros u v; apply He. }
  unfold get_all_commits. change (fun h => (fun ps => rev ps) <$> g !! h) with next.
  destruct (dfs_graph g next head Hsub) as [(cs & -> & P)|(-> & n & H1 & H2)].
  - left. pose proof (dfs_exact _ _ _ P) as [X1 X2]. split.
    + intros x Hx. apply Hr, X2 in Hx. destruct (dp_closed _ _ _ _ _ P x Hx) as (ps & Hn & _). unfold next in Hn.
      destruct (g !! x); [eauto|done].
    + exists cs. split_and!; [done| |by eapply dfs_head_last|].
      * split; [done|]. intros x. by rewrite X2, Hr.
      * intros l1 y l2 E Hy. destruct (dfs_later _ _ _ _ _ _ P E Hy) as (m & ? & ?%He). by exists m.
  - right. split; [|done]. intros Hc. apply Hr, Hc in H1 as [ps Hps]. unfold next in H2. by rewrite Hps in H2.
Qed.

(** ** The record of one branch *)
Lemma branch_info_spec rng sha g es d b name : any_order rng -> es ≡ₚ map_to_list g ->
  complete g -> is_Some (g !! d) -> is_Some (g !! b) ->
  exists br, branch_info rng sha g (children_from_parents es) d name b = Ret (Some br) /\
    (forall rng' es', any_order rng' -> es' ≡ₚ map_to_list g ->
       branch_info rng' sha g (children_from_parents es') d name b = Ret (Some br)) /\
    br_head br = b /\ br_name br = name /\ (br_pr br = true <-> name = []) /\ br_default br = false /\
    (br_merged br = true <-> reaches g d b) /\
    NoDup (br_commits br) /\ (exists l, br_commits br = l ++ [b]) /\ br_ahead br = length (br_commits br) /\
    (exists l, br_commits br = br_first br :: l) /\
    (forall l1 n l2, br_commits br = l1 ++ n :: l2 -> n <> b -> exists m, m ∈ l2 /\ parent g m n) /\
    (forall x, x ∈ br_commits br -> x = b \/ ~ base g d b x) /\
    (acyclic g \/ ~ reaches g d b -> forall x, x ∈ br_commits br <-> x = b \/ (reaches g b x /\ ~ base g d b x)) /\
    (acyclic g -> StronglySorted bytes_le (br_from br) /\
       lists_exactly (br_from br) (fun x => candidate g d b (br_commits br) x /\
          ~ exists y, candidate g d b (br_commits br) y /\ ancestor g x y)) /\
    (reaches g d b -> br_behind br = 0 /\
       ((br_merge_commit br = [] /\ forall c, parent g c b -> ~ reaches g d c) \/
        (parent g (br_merge_commit br) b /\ reaches g d (br_merge_commit br) /\
         forall c, parent g c b -> reaches g d c -> bytes_le (br_merge_commit br) c))) /\
    (~ reaches g d b -> br_merge_commit br = [] /\
       (br_from br = [] -> br_behind br = 0) /\
       (br_from br <> [] -> exists counted, br_behind br = length counted /\
          lists_exactly counted (fun x => reaches_avoiding g (meets g d b) d x /\ ~ meets g d b x))) /\
    br_id br = (if decide (name = []) then [] else sha (name ++ match br_from br with x :: _ => x | [] => [] end)).
Proof.
  intros Hrng Hes Hc Hd Hb. unfold branch_info.
  destruct (reachable_exact g d) as (R & -> & HR). cbn [obind].
  destruct (branch_commits_spec rng g d R b Hrng Hc Hd Hb HR) as (commits & from & Hbc & B1 & B2 & B3 & B4 & B5 & B6 & B7).
  destruct (merge_commit_spec g es R d b Hes HR Hb) as (mc & Hmc & M).
  destruct (behind_spec g R b d HR) as (counted & Hbh & K).
  assert (forall rng' es', any_order rng' -> es' ≡ₚ map_to_list g -> exists merged mc' behind c0 l,
    merged = bool_decide (b ∈ R) /\ commits = c0 :: l /\
    (mc', behind) = (if decide (b ∈ R) then (mc, 0) else match from with [] => ([], 0) | _ => ([], length counted) end) /\
    process_branch rng' sha g (children_from_parents es') d R name b =
    Ret (Some (Branch (if bool_decide (name = []) then [] else branch_id sha name from) name (bool_decide (name = [])) b false
       merged mc' from commits behind (length commits) c0))) as Hall.
  { intros rng' es' Hrng' Hes'. unfold process_branch. rewrite (bool_decide_eq_false_2 (g !! b = None)) by (destruct Hb; congruence).
    rewrite andb_false_r, (B6 rng' Hrng'). cbn [obind]. rewrite (children_order g es' es Hes' Hes), Hmc. cbn [obind].
    destruct commits as [|c0 l]; [destruct B2 as [[|??] ?]; done|].
    destruct (decide (b ∈ R)) as [Hin|Hin].
    - rewrite (bool_decide_eq_true_2 _ Hin). by eexists _, _, _, c0, l.
    - rewrite (bool_decide_eq_false_2 _ Hin). destruct from as [|f0 fr].
      + by eexists _, _, _, c0, l.
      + rewrite Hbh. by eexists _, _, _, c0, l. }
  destruct (Hall rng es Hrng Hes) as (merged & mc' & behind & c0 & l & -> & Hl & Hm & Hp).
  eexists. split; [exact Hp|]. cbn [br_head br_name br_pr br_default br_merged br_commits br_ahead br_first br_from br_behind br_merge_commit br_id].
  destruct HR as [HR1 HR2]. split_and!; try done.
  - intros rng' es' H1 H2. destruct (Hall rng' es' H1 H2) as (? & ? & ? & c1 & l1 & -> & Hl' & Hm' & ->).
    rewrite <-Hm in Hm'. injection Hm' as -> ->. rewrite Hl in Hl'. by injection Hl' as -> ->.
  - apply bool_decide_eq_true.
  - rewrite bool_decide_eq_true. apply HR2.
  - by exists l.
  - intros Hr. apply HR2 in Hr. rewrite decide_True in Hm by done. injection Hm as -> ->. done.
  - intros Hr. rewrite <-HR2 in Hr. rewrite decide_False in Hm by done.
    destruct from as [|f0 fr]; injection Hm as -> ->; split_and!; try done. intros _. by exists counted.
  - unfold branch_id. by destruct (decide (name = [])) as [->|?]; [|rewrite bool_decide_eq_false_2].
Qed.

(** A pull request head that is not in the graph is skipped; an unknown branch head is a panic. *)
Lemma unknown_pr rng sha g ch d b : g !! b = None -> branch_info rng sha g ch d [] b = Ret None.
Proof.
  intros Hb. unfold branch_info. destruct (reachable_exact g d) as (R & -> & _). cbn [obind]. unfold process_branch.
  by rewrite !bool_decide_eq_true_2.
Qed.

(** ** C18: when the branch is a chain *)
Lemma chain_first g (commits : list bytes) b x :
  acyclic g -> NoDup commits -> (exists l, commits = l ++ [b]) ->
  (forall l1 n l2, commits = l1 ++ n :: l2 -> n <> b -> exists m, m ∈ l2 /\ parent g m n) ->
  (forall c p q, c ∈ commits -> p ∈ commits -> q ∈ commits -> parent g c p -> parent g c q -> p = q) ->
  forall first rest, commits = first :: rest -> x ∈ commits -> ~ parent g first x.
Proof.
  intros Hac Hnd [l0 Hl0] Hlater Huniq first rest Hfirst Hx Hp.
  assert (forall i n, commits !! i = Some n -> S i < length commits -> exists j m, i < j /\ commits !! j = Some m /\ parent g m n) as Hlt.
  { intros i n Hi Hlen. destruct (Hlater (take i commits) n (drop (S i) commits)) as (m & Hm & Hmn).
    - symmetry. by apply take_drop_middle.
    - intros ->. assert (commits !! (length commits - 1) = Some b) as Hlast.
      { rewrite Hl0 at 2. rewrite lookup_app_r; rewrite Hl0, app_length; cbn; [|lia].
        replace (length l0 + 1 - 1 - length l0) with 0 by lia. done. }
      pose proof (NoDup_lookup _ _ _ _ Hnd Hi Hlast). lia.
    - apply elem_of_list_lookup in Hm as (j & Hj). rewrite lookup_drop in Hj. exists (S i + j), m. split_and!; [lia|done|done]. }
  assert (forall k i n m, length commits - i < k -> commits !! i = Some n -> commits !! S i = Some m -> parent g m n) as Hchain.
  { induction k as [|k IH]; intros i n m Hk Hi Hm; [lia|]. pose proof (lookup_lt_Some _ _ _ Hm) as Hlen.
    destruct (Hlt i n Hi Hlen) as (j & m' & Hij & Hj & Hp').
    destruct (decide (j = S i)) as [->|Hne]; [congruence|]. exfalso.
    destruct j as [|j]; [lia|]. pose proof (lookup_lt_Some _ _ _ Hj).
    destruct (lookup_lt_is_Some_2 commits j) as [q Hq]; [lia|].
    assert (parent g m' q) as Hmq by (apply (IH j); [lia|done|done]).
    assert (q = n) as ->. { apply (Huniq m'); try done; eapply elem_of_list_lookup_2; done. }
    pose proof (NoDup_lookup _ _ _ _ Hnd Hi Hq). lia. }
  assert (forall k y, commits !! k = Some y -> reaches g y first) as Hreach.
  { induction k as [|k IH]; intros y Hy.
    - rewrite Hfirst in Hy. injection Hy as <-. apply rtc_refl.
    - destruct (lookup_lt_is_Some_2 commits k) as [q Hq]; [apply lookup_lt_Some in Hy; lia|].
      eapply rtc_l; [|by apply IH]. by eapply (Hchain (S (length commits - k)) k); [lia|..]. }
  apply elem_of_list_lookup in Hx as [k Hk]. apply (Hac first). eapply tc_rtc_r; [by constructor|]. by apply (Hreach k).
Qed.

(** ** Branch points exist exactly when the histories are related *)
Lemma acyclic_sn g x : acyclic g -> sn (parent g) x.
Proof.
  intros Hac. apply tc_finite_sn; [exact Hac|]. exists (elements (universe g x)). intros y Hy. apply elem_of_elements.
  apply tc_rtc, rtc_inv_r in Hy as [->|(z & _ & Hp)]; [unfold universe; set_solver|by eapply universe_parent].
Qed.
Lemma from_nonempty g d b commits from : acyclic g -> ~ reaches g d b ->
  (forall x, x ∈ commits <-> x = b \/ (reaches g b x /\ ~ base g d b x)) ->
  lists_exactly from (fun x => candidate g d b commits x /\ ~ exists y, candidate g d b commits y /\ ancestor g x y) ->
  from <> [] <-> exists x, reaches g b x /\ reaches g d x.
Proof.
  intros Hac Hb Hcs [_ Hf].
  assert (forall x, base g d b x <-> reaches g d x) as Hbase by (intros x; by apply avoiding_unmerged).
  split.
  - intros Hne. destruct from as [|x l]; [done|]. destruct (proj1 (Hf x)) as [(Hx & c & Hc & Hp) _]; [set_solver|].
    exists x. split; [|by apply Hbase]. apply Hcs in Hc as [->|[Hc _]]; [by apply rtc_once|eapply rtc_r; done].
  - intros (x & Hbx & Hdx) ->.
    assert (forall y, candidate g d b commits y -> False) as Hnone.
    { assert (forall y, sn (parent g) y -> forall z, reaches g y z -> ~ candidate g d b commits z) as K.
      { intros y Hsn. induction Hsn as [y _ IH]. intros z Hz Hcand. apply rtc_inv in Hz as [->|(w & Hw & Hz)].
        - assert (z ∈ @nil bytes) as X; [|set_solver]. apply Hf. split; [done|]. intros (u & Hu & Hzu).
          assert (exists p, parent g z p /\ reaches g p u) as (p & Hp & Hpu).
          { inversion Hzu; subst; [exists u; split; [done|apply rtc_refl]|eexists; split; [done|by apply tc_rtc]]. }
          by apply (IH p Hp u).
        - by apply (IH w Hw z). }
      intros y Hy. apply (K y (acyclic_sn g y Hac) y); [apply rtc_refl|done]. }
    destruct (reachable_exact g d) as (R & _ & _ & HR).
    enough (forall y, reaches g y x -> reaches g b y -> ~ reaches g d y -> False) as K by (apply (K b); [done|apply rtc_refl|done]).
    refine (rtc_ind_l _ _ _ _); [done|]. intros y z Hyz Hzx IH Hby Hdy.
    destruct (decide (z ∈ R)) as [Hin|Hin]; rewrite HR in Hin.
    + apply (Hnone z). split; [by apply Hbase|]. exists y. split; [|done]. apply Hcs. right. by rewrite Hbase.
    + apply IH; [eapply rtc_r; done|done].
Qed.

(** A merged head other than the default head has a child on the default branch. *)
Lemma merged_child g d b : reaches g d b -> b <> d -> exists c, parent g c b /\ reaches g d c.
Proof. intros Hr Hne. apply rtc_inv_r in Hr as [->|(c & Hc & Hp)]; [done|]. by exists c. Qed.
