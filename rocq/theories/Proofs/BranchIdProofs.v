(** * The identifier of a branch *)
From Verif.Model Require Import Base GoStrings GoSort ParentsGraph Branches.
From Verif.Spec Require Import Text GitLog CommitGraph BranchIds.
From Verif.Proofs Require Import SortLemmas Dfs ParentsGraphProofs BranchProofs BranchMore.
From Coq Require Import Lia.

Section Growth.
Context (g g' : graph) (Hg : history_grew g g') (Hc : complete g).

Lemma grew_parent c x : parent g c x -> parent g' c x.
Proof using Hg.
  unfold parent, parents. destruct (g !! c) as [ps|] eqn:E; [by rewrite (Hg _ _ E)|]. cbn. by intros ?%elem_of_nil.
Qed.
Lemma grew_reaches c x : reaches g c x -> reaches g' c x.
Proof using Hg. apply rtc_subrel. apply grew_parent. Qed.
Lemma grew_ancestor c x : ancestor g c x -> ancestor g' c x.
Proof using Hg.
  intros Hr. induction Hr as [c y Hy|c y z Hy Hr IH]; [by apply tc_once, grew_parent|].
  eapply tc_l; [by apply grew_parent|exact IH].
Qed.
Lemma shrink_parent c x : is_Some (g !! c) -> parent g' c x -> parent g c x.
Proof using Hg. intros [ps E]. unfold parent, parents. by rewrite E, (Hg _ _ E). Qed.
Lemma shrink_reaches c x : is_Some (g !! c) -> reaches g' c x -> reaches g c x.
Proof using Hg Hc.
  intros Hs Hr. revert Hs. induction Hr as [c|c y z Hy Hr IH]; intros Hs; [apply rtc_refl|].
  pose proof (shrink_parent _ _ Hs Hy) as Hp. eapply rtc_l; [exact Hp|]. apply IH. by eapply Hc.
Qed.
Lemma shrink_ancestor c x : is_Some (g !! c) -> ancestor g' c x -> ancestor g c x.
Proof using Hg Hc.
  intros Hs Hr. revert Hs. induction Hr as [c y Hy|c y z Hy Hr IH]; intros Hs.
  - apply tc_once. by apply shrink_parent.
  - pose proof (shrink_parent _ _ Hs Hy) as Hp. eapply tc_l; [exact Hp|]. apply IH. by eapply Hc.
Qed.
Lemma reaches_key c x : is_Some (g !! c) -> reaches g c x -> is_Some (g !! x).
Proof using Hc. intros Hs Hr. induction Hr as [c|c y z Hy Hr IH]; [done|]. apply IH. by eapply Hc. Qed.
End Growth.

Lemma reaches_tc g x y : reaches g x y -> x = y \/ ancestor g x y.
Proof. unfold reaches, ancestor. rewrite rtc_tc. tauto. Qed.

Lemma same_points g d b g' d' b' (commits : list bytes) :
  branch_grew g d b g' d' b' -> complete g -> acyclic g' -> is_Some (g !! d) -> is_Some (g !! b) -> ~ reaches g d b ->
  (forall c, c ∈ commits <-> on_branch g d b c) ->
  forall x, (leaves_at g' d' b' x /\ ~ exists y, leaves_at g' d' b' y /\ ancestor g' x y) <->
            (leaves_at g d b x /\ ~ exists y, leaves_at g d b y /\ ancestor g x y).
Proof.
  intros [Hg Hb Hd Hp Ht] Hc Hac Kd Kb Hn Hm.
  assert (forall c, on_branch g d b c -> reaches g b c) as Hob.
  { intros c [->|[H _]]; [apply rtc_refl|]. apply rtc_tc. by right. }
  assert (forall x, leaves_at g d b x -> is_Some (g !! x)) as Kx.
  { intros x [H _]. eapply reaches_key; [done|exact Kd|]. by eapply avoiding_reaches. }
  assert (forall x, reaches g d x -> default_has g' d' b' x) as Hhas.
  { refine (rtc_ind_r _ _ _ _); [exact Hd|intros y z Hr Hyz IH]. eapply rtc_r; [exact IH|]. split; [by apply (grew_parent g)|].
    intros ->. apply Hn. eapply rtc_transitive; [exact Hr|]. eapply shrink_reaches; [done|done| |exact Hb].
    eapply reaches_key; [done|exact Kd|done]. }
  assert (forall c, on_branch g d b c -> on_branch g' d' b' c) as Hon.
  { intros c Hcb. destruct (decide (c = b')) as [->|Hne]; [by left|]. right. split; [|by apply Hp].
    assert (reaches g' b' c) as Hr.
    { eapply rtc_transitive; [exact Hb|]. apply (grew_reaches g); [done|]. by apply Hob. }
    apply reaches_tc in Hr as [?|?]; [congruence|done]. }
  assert (forall x, leaves_at g d b x -> leaves_at g' d' b' x) as H1.
  { intros x [Hx (c & Hcb & Hcx)]. split; [apply Hhas; by eapply avoiding_reaches|]. exists c. split; [by apply Hon|].
    by apply (grew_parent g). }
  assert (forall x, leaves_at g' d' b' x -> exists y, leaves_at g d b y /\ reaches g' x y) as H2.
  { intros x [Hx (c & Hcb & Hcx)]. destruct (decide (c ∈ commits)) as [Hin|Hout].
    - apply Hm in Hin. assert (is_Some (g !! c)) as Kc by (eapply reaches_key; [done|exact Kb|by apply Hob]).
      apply (shrink_parent g) in Hcx; [|done|done]. destruct (decide (x ∈ commits)) as [Hxin|Hxout].
      + exfalso. apply Hm in Hxin. destruct (decide (x = b')) as [->|Hne]; [|by eapply Hp].
        apply (Hac b'). eapply tc_rtc_l; [|apply tc_once, (grew_parent g); [done|exact Hcx]].
        eapply rtc_transitive; [exact Hb|]. apply (grew_reaches g); [done|]. by apply Hob.
      + exists x. split; [|apply rtc_refl]. split; [|by exists c].
        destruct (reachable_exact g d) as (R & _ & _ & HR). destruct (decide (x ∈ R)) as [Hr|Hr].
        * apply avoiding_unmerged; [done|]. by apply HR.
        * exfalso. apply Hxout, Hm. right. split.
          -- eapply tc_rtc_l; [by apply Hob|]. by apply tc_once.
          -- intros Hd'. apply Hr, HR. by eapply avoiding_reaches.
    - apply (Ht c x); try done. by rewrite <-Hm. }
  intros x. split.
  - intros [Hx Hmin]. destruct (H2 x Hx) as (y & Hy & Hr). apply reaches_tc in Hr as [->|Hr].
    + split; [done|]. intros (z & Hz & Hyz). apply Hmin. exists z. split; [by apply H1|]. by apply (grew_ancestor g).
    + exfalso. apply Hmin. exists y. split; [by apply H1|done].
  - intros [Hx Hmin]. split; [by apply H1|]. intros (z & Hz & Hxz). destruct (H2 z Hz) as (y & Hy & Hr).
    apply Hmin. exists y. split; [done|]. eapply (shrink_ancestor g g'); [done|done|by apply Kx|].
    eapply tc_rtc_r; [exact Hxz|exact Hr].
Qed.

(** The commits and branching points of a record in the words of the specification. *)
Lemma record_points rng sha g es d b name : any_order rng -> es ≡ₚ map_to_list g ->
  complete g -> is_Some (g !! d) -> is_Some (g !! b) -> acyclic g ->
  exists br, branch_info rng sha g (children_from_parents es) d name b = Ret (Some br) /\
    (forall c, c ∈ br_commits br <-> on_branch g d b c) /\ StronglySorted bytes_le (br_from br) /\
    lists_exactly (br_from br) (fun x => leaves_at g d b x /\ ~ exists y, leaves_at g d b y /\ ancestor g x y) /\
    (name <> [] -> br_id br = sha (name ++ match br_from br with x :: _ => x | [] => [] end)).
Proof.
  intros H1 H2 H3 H4 H5 Hac. destruct (branch_info_spec rng sha g es d b name H1 H2 H3 H4 H5)
    as (br & Hbr & _ & _ & _ & _ & _ & _ & _ & _ & _ & _ & _ & _ & B6 & B & _ & _ & Hid).
  exists br. assert (forall c, c ∈ br_commits br <-> on_branch g d b c) as Hm.
  { intros c. rewrite B6 by by left. unfold base, on_branch, default_has, reaches, ancestor. rewrite rtc_tc.
    split; [intros [?|[[->|?] ?]]; auto|intros [?|[? ?]]; auto]. }
  destruct (B Hac) as [S [N E]]. split_and!; [done|done|done| |].
  - assert (forall x, candidate g d b (br_commits br) x <-> leaves_at g d b x) as Hl.
    { intros x. unfold candidate, leaves_at, base, default_has.
      split; intros (? & c & ? & ?); (split; [done|]); exists c; (split; [by apply Hm|done]). }
    split; [done|]. intros x. rewrite E, Hl. split; intros [? Hn]; (split; [done|]); intros (y & Hy & ?); apply Hn; exists y; (split; [by apply Hl|done]).
  - intros Hn. by rewrite Hid, decide_False.
Qed.

Lemma points_same (l l' : list bytes) (P P' : bytes -> Prop) :
  StronglySorted bytes_le l -> StronglySorted bytes_le l' -> lists_exactly l P -> lists_exactly l' P' ->
  (forall x, P' x <-> P x) -> l' = l.
Proof.
  intros S S' [N E] [N' E'] H. apply (StronglySorted_unique bytes_le); [done|done|].
  apply NoDup_Permutation; [done|done|]. intros x. by rewrite E, E', H.
Qed.

Lemma same_hash_parts n (s t x y : bytes) : length x = n -> length y = n -> s ++ x = t ++ y -> s = t /\ x = y.
Proof. intros Hx Hy E. apply app_inj_2 in E; [done|lia]. Qed.

(** Leaving [b] out is cutting its parents off. *)
Lemma default_has_cut g d b x : default_has g d b x <-> reaches (<[ b := [] ]> g) d x.
Proof.
  assert (forall u v, (parent g u v /\ u <> b) <-> parent (<[ b := [] ]> g) u v) as H.
  { intros u v. unfold parent, parents. destruct (decide (u = b)) as [->|Hne].
    - rewrite lookup_insert. cbn. split; [by intros [_ ?]|by intros ?%elem_of_nil].
    - rewrite lookup_insert_ne by congruence. tauto. }
  unfold default_has, reaches_avoiding, reaches. split; apply rtc_subrel; intros u v; apply H.
Qed.
