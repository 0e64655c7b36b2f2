(** * C14-C22: branch information *)
From Verif.Model Require Import Base GoStrings GoSort ParentsGraph Branches.
From Verif.Spec Require Import CommitGraph.
From Verif.Proofs Require Import SortLemmas Dfs ParentsGraphProofs.
From Coq Require Import Lia.

Lemma gparents_parents g x : gparents g x = parents g x.
Proof. done. Qed.
Lemma parent_is_key g x y : parent g x y -> is_Some (g !! x).
Proof. unfold parent, parents. destruct (g !! x); [eauto|set_solver]. Qed.
Lemma complete_reach g x y : complete g -> is_Some (g !! x) -> reaches g x y -> is_Some (g !! y).
Proof. intros Hc Hx Hr. induction Hr as [|a b c Hab _ IH]; [done|]. apply IH. by eapply Hc. Qed.

(** ** C14 *)
Lemma reachable_exact g d : exists R, reachable_from_head g d = Ret R /\ lists_exactly R (reaches g d).
Proof.
  unfold reachable_from_head.
  assert (sub_next g (fun h => Some (gparents g h))) as Hs by (intros x ps [= <-] y Hy; exact Hy).
  destruct (dfs_graph g _ d Hs) as [(R & -> & P)|(_ & n & _ & [=])].
  exists R. split; [done|]. apply dfs_exact in P as [H1 H2]. split; [done|]. intros x. rewrite H2. split.
  - by apply rtc_edge_reaches.
  - apply rtc_subrel. intros a b Hab. by eexists.
Qed.

(** ** The commits of a branch *)
Section commits.
  Context (g : graph) (R : list bytes) (b : bytes).
  Definition bc_next (h : bytes) : option (list bytes) := (fun ps => filter (fun p => p ∉ R) (rev ps)) <$> g !! h.
  Lemma bc_edge x y : edge bc_next x y <-> parent g x y /\ y ∉ R.
  Proof.
    unfold edge, bc_next, parent, parents. destruct (g !! x) as [ps|]; cbn.
    - split.
      + intros (qs & [= <-] & Hy). apply elem_of_list_filter in Hy as [? Hy]. split; [|done].
        apply elem_of_list_In, in_rev, elem_of_list_In. done.
      + intros [Hy ?]. eexists. split; [done|]. apply elem_of_list_filter. split; [done|].
        apply elem_of_list_In. rewrite <-in_rev. by apply elem_of_list_In.
    - split; [by intros (?&?&?)|intros [? _]; set_solver].
  Qed.
  Lemma bc_sub : sub_next g bc_next.
  Proof. intros x ps Hx y Hy. apply bc_edge. by exists ps. Qed.
  Lemma bc_dfs : complete g -> is_Some (g !! b) ->
    exists acc, dfs (graph_fuel g) bc_next [] b = Ret acc /\ dfs_post bc_next [b] [] acc acc.
  Proof.
    intros Hc Hb. destruct (dfs_graph g _ b bc_sub) as [?|(_ & n & Hr & Hn)]; [done|].
    exfalso. apply rtc_edge_reaches with (g := g) in Hr; [|apply bc_sub].
    destruct (complete_reach g b n Hc Hb Hr) as [ps Hps]. unfold bc_next in Hn. by rewrite Hps in Hn.
  Qed.
  (** If everything after a commit of [R] other than [b] is in [R]: exactly [b] and the ancestors outside [R]. *)
  Lemma bc_rtc x : (forall u v, u ∈ R -> u <> b -> parent g u v -> v ∈ R) -> acyclic g \/ b ∉ R ->
    rtc (edge bc_next) b x <-> x = b \/ (reaches g b x /\ x ∉ R).
  Proof.
    intros Hcl Hac. split.
    - intros Hr. apply rtc_inv_r in Hr as [->|(y & Hr & [Hp Hx]%bc_edge)]; [by left|]. right. split; [|done].
      eapply rtc_r; [|done]. eapply rtc_edge_reaches; [apply bc_sub|done].
    - intros [->|[Hr Hx]]; [apply rtc_refl|].
      enough (forall y, reaches g y x -> (y ∉ R \/ y = b) -> reaches g b y -> rtc (edge bc_next) y x) as K.
      { apply K; [done|by right|apply rtc_refl]. }
      refine (rtc_ind_l _ _ _ _); [intros; apply rtc_refl|intros y z Hyz Hzx IH Hy' Hby].
      assert (z ∉ R) as Hz.
      { intros Hz. assert (forall u, reaches g u x -> u ∈ R -> ancestor g b u -> False) as K.
        { refine (rtc_ind_l _ _ _ _); [done|intros u v Huv Hvx IHu HuR Hbu].
          apply IHu.
          - eapply Hcl; [done| |done]. intros ->. destruct Hac as [Hac|Hac]; [by apply (Hac b)|done].
          - eapply tc_r; done. }
        apply (K z); [done|done|]. eapply tc_rtc_l; [done|]. by constructor. }
      eapply rtc_l; [apply bc_edge; split; done|]. apply IH; [by left|]. eapply rtc_r; done.
  Qed.
End commits.

(** ** The default branch without the branch head *)
Lemma stop_next_sub g b : sub_next g (fun h => if decide (h = b) then Some [] else g !! h).
Proof.
  intros x ps H y Hy. unfold parent, parents. destruct (decide (x = b)); [injection H as <-; set_solver|]. by rewrite H.
Qed.
Lemma stop_exact g b d : complete g -> is_Some (g !! d) ->
  exists R, dfs (graph_fuel g) (fun h => if decide (h = b) then Some [] else g !! h) [] d = Ret R /\
    lists_exactly R (reaches_avoiding g (fun y => y = b) d).
Proof.
  intros Hc Hd. destruct (dfs_graph g _ d (stop_next_sub g b)) as [(R & -> & P)|(_ & n & Hr & Hn)].
  - exists R. split; [done|]. apply dfs_exact in P as [H1 H2]. split; [done|]. intros x. rewrite H2. unfold reaches_avoiding. split.
    + apply rtc_subrel. intros u v (ps & Hu & Hv). split; [by eapply stop_next_sub|]. intros ->. rewrite decide_True in Hu by done.
      injection Hu as <-. set_solver.
    + apply rtc_subrel. intros u v [Huv Hub]. unfold edge. rewrite decide_False by done. unfold parent, parents in Huv.
      destruct (g !! u) as [ps|]; [|set_solver]. by exists ps.
  - exfalso. apply rtc_edge_reaches with (g := g) in Hr; [|apply stop_next_sub]. cbn in Hn.
    destruct (complete_reach g d n Hc Hd Hr) as [ps Hps]. rewrite Hps in Hn. by destruct (decide (n = b)).
Qed.
Lemma avoiding_reaches g P x y : reaches_avoiding g P x y -> reaches g x y.
Proof. apply rtc_subrel. by intros ?? [? _]. Qed.
Lemma avoiding_unmerged g b d x : ~ reaches g d b -> reaches_avoiding g (fun y => y = b) d x <-> reaches g d x.
Proof.
  intros Hb. split; [apply avoiding_reaches|]. unfold reaches_avoiding. revert x.
  refine (rtc_ind_r _ _ _ _); [apply rtc_refl|intros y z Hr Hyz IH]. eapply rtc_r; [done|]. split; [done|]. by intros ->.
Qed.

(** ** dedupLinearFromHead *)
Section deep.
  Context (g : graph) (cs : list bytes).
  Lemma has_deep_total fuel : forall (U : gset bytes) st h,
    h ∈ U -> (forall x y, x ∈ U -> parent g x y -> y ∈ U) -> size (U ∖ dom st) <= fuel ->
    exists st' r, has_deep fuel g cs st h = Ret (st', r) /\ st' !! h = Some r /\ dom st ⊆ dom st' /\
      (forall x y, x ∈ dom st' -> x ∉ dom st -> parent g x y -> y ∈ dom st') /\
      (forall x, x ∈ dom st -> st' !! x = st !! x).
  Proof.
    induction fuel as [|fuel IH]; intros U st h Hh HU Hs; cbn [has_deep]; destruct (st !! h) as [r|] eqn:E.
    - exists st, r. split_and!; set_solver.
    - exfalso. apply not_elem_of_dom in E. assert (U ∖ dom st ≡ ∅) as X by (apply size_empty_iff; lia). set_solver.
    - exists st, r. split_and!; set_solver.
    - apply not_elem_of_dom in E.
      set (st0 := <[h:=false]> st).
      assert (size (U ∖ dom st0) <= fuel) as Hs0.
      { assert (size (U ∖ dom st) = S (size (U ∖ dom st0))); [|lia]. unfold st0. rewrite dom_insert_L.
        assert (U ∖ dom st = {[h]} ∪ U ∖ ({[h]} ∪ dom st)) as ->.
        { apply set_eq. intros x. destruct (decide (x = h)); set_solver. }
        rewrite size_union by set_solver. by rewrite size_singleton. }
      assert (forall ps st1 a, (forall y, y ∈ ps -> parent g h y) -> dom st0 ⊆ dom st1 ->
        (forall x y, x ∈ dom st1 -> x ∉ dom st0 -> parent g x y -> y ∈ dom st1) ->
        exists st2 a2, ofold (fun (a : gmap bytes bool * bool) p => do x <- has_deep fuel g cs a.1 p; Ret (x.1, a.2 || x.2)) (st1, a) ps = Ret (st2, a2) /\
          dom st1 ⊆ dom st2 /\ (forall y, y ∈ ps -> y ∈ dom st2) /\
          (forall x y, x ∈ dom st2 -> x ∉ dom st0 -> parent g x y -> y ∈ dom st2) /\
          (forall x, x ∈ dom st1 -> st2 !! x = st1 !! x)) as F.
      { induction ps as [|p ps IHp]; intros st1 a Hps Hd Hcl; cbn [ofold fst snd].
        - exists st1, a. split_and!; set_solver.
        - destruct (IH U st1 p) as (st2 & r & -> & H1 & H2 & H3 & H4).
          + eapply HU; [exact Hh|]. apply Hps. set_solver.
          + done.
          + etransitivity; [|exact Hs0]. apply subseteq_size. set_solver.
          + cbn [obind fst snd]. apply elem_of_dom_2 in H1.
            destruct (IHp st2 (a || r)) as (st3 & a3 & -> & K1 & K2 & K3 & K4).
            * set_solver.
            * set_solver.
            * intros x y Hx Hx0 Hxy. destruct (decide (x ∈ dom st1)) as [?|?]; [apply H2; by eapply Hcl|by eapply H3].
            * exists st3, a3. split_and!; [done|set_solver| |done|].
              -- intros y [->|Hy]%elem_of_cons; [set_solver|by apply K2].
              -- intros x Hx. rewrite K4 by set_solver. by apply H4. }
      destruct (F (gparents g h) st0 (bool_decide (h ∈ cs))) as (st2 & a2 & -> & K1 & K2 & K3 & K4).
      { done. } { done. } { set_solver. }
      cbn [obind fst snd]. exists (<[h:=a2]> st2), a2. split_and!.
      + done.
      + by rewrite lookup_insert.
      + rewrite dom_insert_L. unfold st0 in K1. rewrite dom_insert_L in K1. set_solver.
      + intros x y Hx Hx0 Hxy. rewrite dom_insert_L in *. destruct (decide (x = h)) as [->|Hne].
        * apply elem_of_union_r, K2. exact Hxy.
        * apply elem_of_union_r. apply (K3 x y); [set_solver| |done]. unfold st0. rewrite dom_insert_L. set_solver.
      + intros x Hx. rewrite lookup_insert_ne by (intros ->; done). rewrite K4.
        * unfold st0. rewrite lookup_insert_ne; [done|]. intros ->. done.
        * unfold st0. rewrite dom_insert_L. set_solver.
  Qed.

  Definition deep_val (x : bytes) (r : bool) : Prop := r = true <-> exists c, c ∈ cs /\ reaches g x c.
  Lemma has_deep_exact : acyclic g -> forall fuel st h st' r (S : bytes -> Prop),
    has_deep fuel g cs st h = Ret (st', r) ->
    (forall x v, st !! x = Some v -> S x \/ deep_val x v) -> (forall s, S s -> ancestor g s h) ->
    (forall x v, st' !! x = Some v -> S x \/ deep_val x v) /\ deep_val h r.
  Proof.
    intros Hac. induction fuel as [|fuel IH]; intros st h st' r S He Hi HS; cbn [has_deep] in He; destruct (st !! h) as [r0|] eqn:E.
    - injection He as <- <-. split; [done|]. destruct (Hi _ _ E) as [Hs|?]; [|done]. by apply HS, Hac in Hs.
    - done.
    - injection He as <- <-. split; [done|]. destruct (Hi _ _ E) as [Hs|?]; [|done]. by apply HS, Hac in Hs.
    - destruct (ofold _ _ _) as [[st2 a2]| |] eqn:Ef; cbn in He; try done. injection He as <- <-.
      set (S' := fun x => S x \/ x = h).
      assert (forall qs ps st1 a, (forall y, y ∈ ps -> parent g h y) ->
        (forall x v, st1 !! x = Some v -> S' x \/ deep_val x v) ->
        (a = true <-> h ∈ cs \/ exists q c, q ∈ qs /\ c ∈ cs /\ reaches g q c) ->
        ofold (fun (a : gmap bytes bool * bool) p => do x <- has_deep fuel g cs a.1 p; Ret (x.1, a.2 || x.2)) (st1, a) ps = Ret (st2, a2) ->
        (forall x v, st2 !! x = Some v -> S' x \/ deep_val x v) /\
        (a2 = true <-> h ∈ cs \/ exists q c, q ∈ qs ++ ps /\ c ∈ cs /\ reaches g q c)) as F.
      { clear Ef. intros qs ps. revert qs. induction ps as [|p ps IHp]; intros qs st1 a Hps H1 Ha Hf; cbn [ofold] in Hf.
        - injection Hf as <- <-. by rewrite app_nil_r.
        - cbn [fst snd] in Hf. destruct (has_deep fuel g cs st1 p) as [[st3 r3]| |] eqn:E3; cbn [obind] in Hf; try done.
          destruct (IH st1 p st3 r3 S' E3 H1) as [K1 K2].
          + intros s [Hs| ->]; [eapply tc_r; [by apply HS|]|constructor]; apply Hps; set_solver.
          + cbn [fst snd] in Hf. destruct (IHp (qs ++ [p]) st3 (a || r3)) as [L1 L2]; [set_solver|done| |done|].
            * rewrite orb_true_iff, Ha. unfold deep_val in K2. rewrite K2. split.
              -- intros [[?|(q&c&?&?&?)]|(c&?&?)]; [by left|right; exists q, c; set_solver|right; exists p, c; set_solver].
              -- intros [?|(q&c&Hq&?&?)]; [by left; left|]. apply elem_of_app in Hq as [Hq|Hq].
                 ++ left. right. by exists q, c.
                 ++ right. apply elem_of_list_singleton in Hq as ->. by exists c.
            * split; [done|]. rewrite L2. by rewrite <-app_assoc. }
      destruct (F [] (gparents g h) (<[h:=false]> st) (bool_decide (h ∈ cs))) as [L1 L2]; [done| | |done|].
      { intros x v Hx. destruct (decide (x = h)) as [->|Hne]; [by left; right|]. rewrite lookup_insert_ne in Hx by done.
        destruct (Hi _ _ Hx); [by left; left|by right]. }
      { rewrite bool_decide_eq_true. split; [by left|]. intros [?|(?&?&?&?)]; [done|set_solver]. }
      assert (deep_val h a2) as Hdv.
      { unfold deep_val. rewrite L2. cbn [app]. split.
        - intros [?|(q&c&Hq&?&?)]; [exists h|exists c]; (split; [done|]); [apply rtc_refl|]. by eapply rtc_l.
        - intros (c & Hc & Hr). apply rtc_inv in Hr as [->|(q & Hq & Hr)]; [by left|]. right. by exists q, c. }
      split; [|done]. intros x v Hx. destruct (decide (x = h)) as [->|Hne].
      + rewrite lookup_insert in Hx. injection Hx as <-. by right.
      + rewrite lookup_insert_ne in Hx by done. destruct (L1 _ _ Hx) as [[?| ->]|?]; [by left|done|by right].
  Qed.
End deep.

Definition any_order (rng : list bytes -> list bytes) : Prop := forall l, rng l ≡ₚ l.

Lemma has_deep_graph g cs head : exists st r, has_deep (graph_fuel g) g cs ∅ head = Ret (st, r) /\
  (forall x, reaches g head x -> is_Some (st !! x)).
Proof.
  destruct (has_deep_total g cs (graph_fuel g) (universe g head) ∅ head) as (st & r & H & H1 & H2 & H3 & _).
  - unfold universe. set_solver.
  - intros x y _ Hxy. by eapply universe_parent.
  - rewrite dom_empty_L. etransitivity; [|apply (universe_size g head [])]. apply subseteq_size. set_solver.
  - exists st, r. split; [done|]. apply elem_of_dom_2 in H1. clear H. intros x Hr. apply elem_of_dom.
    induction Hr as [|y z x Hyz _ IH]; [done|]. apply IH. eapply H3; [done|set_solver|done].
Qed.
Lemma dedup_total rng g cs head : exists l, dedup_linear rng g cs head = Ret l.
Proof.
  unfold dedup_linear. destruct (has_deep_graph g (remove_dups cs) head) as (st & r & -> & _). cbn. by eexists.
Qed.
Lemma dedup_order rng1 rng2 g cs head : any_order rng1 -> any_order rng2 -> dedup_linear rng1 g cs head = dedup_linear rng2 g cs head.
Proof.
  intros H1 H2. unfold dedup_linear. destruct (has_deep _ _ _ _ _) as [[st r]| |]; [|done|done]. cbn. f_equal.
  apply sort_unique. unfold any_order in *. by rewrite H1, H2.
Qed.

Lemma dedup_exact rng g cs head l : any_order rng -> acyclic g -> (forall c, c ∈ cs -> reaches g head c) ->
  dedup_linear rng g cs head = Ret l ->
  StronglySorted bytes_le l /\ lists_exactly l (fun x => x ∈ cs /\ ~ exists y, y ∈ cs /\ ancestor g x y).
Proof.
  intros Hrng Hac Hcs. unfold dedup_linear.
  destruct (has_deep_graph g (remove_dups cs) head) as (st & r & E & Hdom). rewrite E. cbn [obind fst]. intros [= <-].
  split; [apply sort_sorted|].
  destruct (has_deep_exact g (remove_dups cs) Hac _ _ _ _ _ (fun _ => False) E) as [Hv _]; [intros x v; by rewrite lookup_empty|done|].
  split.
  - rewrite sort_perm. apply NoDup_filter. unfold any_order in Hrng. rewrite Hrng. apply NoDup_remove_dups.
  - intros x. rewrite (elem_of_Permutation_proper x _ _ (sort_perm _)), elem_of_list_filter,
      (elem_of_Permutation_proper x _ _ (Hrng _)), elem_of_remove_dups.
    split; intros [H1 H2]; (split; [done|]) || (split; [|done]).
    + intros (y & Hy & Hxy). apply not_true_iff_false in H1. apply H1, existsb_exists.
      assert (exists p, parent g x p /\ reaches g p y) as (p & Hp & Hpy).
      { inversion Hxy; subst; [exists y; split; [done|apply rtc_refl]|eexists; split; [done|by apply tc_rtc]]. }
      exists p. split; [by apply elem_of_list_In|].
      destruct (Hdom p) as [v Hpv]; [eapply rtc_r; [exact (Hcs x H2)|exact Hp]|]. rewrite Hpv. cbn.
      destruct (Hv _ _ Hpv) as [[]|D]. apply D. exists y. by rewrite elem_of_remove_dups.
    + apply not_true_iff_false. intros (p & Hp & Hd)%existsb_exists. apply H2. apply elem_of_list_In in Hp.
      destruct (st !! p) as [v|] eqn:Hpv; cbn in Hd; [|done]. subst v. destruct (Hv _ _ Hpv) as [[]|D].
      destruct (proj1 D eq_refl) as (y & Hy & Hr). exists y. split; [by apply (elem_of_remove_dups cs y)|].
      eapply tc_rtc_r; [constructor; exact Hp|done].
Qed.

(** ** branchCommits *)
(** On the default branch, not counting paths through the branch head. *)
Definition base (g : graph) (d b x : bytes) : Prop := reaches_avoiding g (fun y => y = b) d x.
Definition candidate (g : graph) (d b : bytes) (commits : list bytes) (x : bytes) : Prop :=
  base g d b x /\ exists c, c ∈ commits /\ parent g c x.

Lemma branch_commits_spec rng g d R b : any_order rng -> complete g -> is_Some (g !! d) -> is_Some (g !! b) ->
  lists_exactly R (reaches g d) ->
  exists commits from, branch_commits rng g d R b = Ret (commits, from) /\
    NoDup commits /\ (exists l, commits = l ++ [b]) /\
    (forall l1 n l2, commits = l1 ++ n :: l2 -> n <> b -> exists m, m ∈ l2 /\ parent g m n) /\
    (forall x, x ∈ commits -> x = b \/ ~ base g d b x) /\
    (acyclic g \/ ~ reaches g d b -> forall x, x ∈ commits <-> x = b \/ (reaches g b x /\ ~ base g d b x)) /\
    (forall rng', any_order rng' -> branch_commits rng' g d R b = Ret (commits, from)) /\
    (acyclic g -> StronglySorted bytes_le from /\
       lists_exactly from (fun x => candidate g d b commits x /\ ~ exists y, candidate g d b commits y /\ ancestor g x y)).
Proof.
  intros Hrng Hc Hd Hb [_ HR]. unfold branch_commits.
  assert (exists R', (if decide (b ∈ R) then dfs (graph_fuel g) (fun h => if decide (h = b) then Some [] else g !! h) [] d else Ret R) = Ret R'
    /\ forall x, x ∈ R' <-> base g d b x) as (R' & -> & HR').
  { destruct (decide (b ∈ R)) as [Hin|Hin].
    - destruct (stop_exact g b d Hc Hd) as (R' & -> & _ & H). by exists R'.
    - exists R. split; [done|]. intros x. rewrite HR. unfold base. rewrite avoiding_unmerged; [done|]. by rewrite <-HR. }
  cbn [obind]. change (fun h => (fun ps => filter (fun p => p ∉ R') (rev ps)) <$> g !! h) with (bc_next g R').
  destruct (bc_dfs g R' b Hc Hb) as (commits & -> & P). cbn [obind].
  set (cs := concat _).
  destruct (dedup_total rng g cs b) as [from Hfrom]. rewrite Hfrom. cbn [obind].
  exists commits, from.
  pose proof (dfs_exact _ _ _ P) as [X1 X2].
  assert (forall u v, u ∈ R' -> u <> b -> parent g u v -> v ∈ R') as Hcl.
  { intros u v Hu Hub Huv. apply HR'. apply HR' in Hu. eapply rtc_r; [exact Hu|]. done. }
  assert (forall x, x ∈ cs <-> candidate g d b commits x) as Hcs.
  { intros x. unfold cs, candidate. rewrite elem_of_concat. split.
    - intros (l & Hx & (c & -> & Hcc)%elem_of_list_fmap). apply elem_of_list_filter in Hx as [Hx1 Hx2].
      split; [by apply HR'|]. exists c. split; [done|]. unfold parent. apply elem_of_list_In. rewrite in_rev. by apply elem_of_list_In in Hx2.
    - intros [Hx (c & Hcc & Hp)]. eexists. split; [|apply elem_of_list_fmap; exists c; split; [reflexivity|done]].
      apply elem_of_list_filter. split; [by apply HR'|]. apply elem_of_list_In. rewrite <-in_rev. by apply elem_of_list_In. }
  assert (forall x, x ∈ commits -> reaches g b x) as Hreach.
  { intros x Hx. apply X2 in Hx. eapply rtc_edge_reaches; [apply bc_sub|done]. }
  split_and!.
  - done.
  - done.
  - by eapply dfs_head_last.
  - intros l1 n l2 E Hn. destruct (dfs_later _ _ _ _ _ _ P E Hn) as (m & Hm & He). exists m. split; [done|].
    by apply bc_edge in He as [? _].
  - intros x Hx. apply X2 in Hx. apply rtc_inv_r in Hx as [->|(y & _ & He)]; [by left|]. right. rewrite <-HR'. by apply bc_edge in He as [_ ?].
  - intros Hor x. rewrite X2, bc_rtc; [by rewrite HR'|done|]. destruct Hor as [?|Hn]; [by left|right].
    intros Hin. apply HR' in Hin. by apply Hn, (avoiding_reaches _ (fun y => y = b)).
  - intros rng' H'. rewrite (dedup_order rng' rng) by done. by rewrite Hfrom.
  - intros Hac. destruct (dedup_exact rng g cs b from Hrng Hac) as [S1 [S2 S3]]; [|done|].
    + intros c (_ & c' & Hc' & Hp)%Hcs. eapply rtc_r; [by apply Hreach|done].
    + split; [done|]. split; [done|]. intros x. rewrite S3, Hcs. split; intros [H1 H2]; (split; [done|]);
        intros (y & Hy & Ha); apply H2; exists y; (split; [by apply Hcs|done]).
Qed.
