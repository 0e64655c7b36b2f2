(** * The depth-first traversal: termination, exactness, order *)
From Verif.Model Require Import Base GoStrings GoSort ParentsGraph Branches.
From Verif.Spec Require Import CommitGraph.
From Coq Require Import Lia.

Lemma elem_of_concat {A} (x : A) ls : x ∈ concat ls <-> exists l, x ∈ l /\ l ∈ ls.
Proof.
  rewrite elem_of_list_In, in_concat. split; intros (l & H1 & H2); exists l.
  - by rewrite !elem_of_list_In.
  - by rewrite <- !elem_of_list_In.
Qed.

Section dfs.
  Context (next : bytes -> option (list bytes)).
  Definition edge (x y : bytes) : Prop := exists ps, next x = Some ps /\ y ∈ ps.

  (** What the traversal of the start list [hs] adds to [acc]. *)
  Record dfs_post (hs acc acc' new : list bytes) : Prop := DfsPost {
    dp_app : acc' = new ++ acc;
    dp_nodup : NoDup acc -> NoDup acc';
    dp_in : Forall (fun h => h ∈ acc') hs;
    dp_reach : forall n, n ∈ new -> exists h, h ∈ hs /\ rtc edge h n;
    dp_closed : forall n, n ∈ new -> exists ps, next n = Some ps /\ Forall (fun p => p ∈ acc') ps;
    dp_order : forall l1 n l2, new = l1 ++ n :: l2 -> n ∈ hs \/ exists m, m ∈ l2 /\ edge m n }.

  Definition dfs_ok (fuel : nat) : Prop := forall (U : gset bytes) acc h,
    h ∈ U -> (forall x y, x ∈ U -> edge x y -> y ∈ U) -> size (U ∖ list_to_set acc) <= fuel ->
    (exists acc' new, dfs fuel next acc h = Ret acc' /\ dfs_post [h] acc acc' new) \/
    (dfs fuel next acc h = Panic (B "commit not found in tree") /\ exists n, rtc edge h n /\ next n = None).

  Lemma dfs_fold fuel : dfs_ok fuel -> forall (U : gset bytes) hs acc,
    Forall (fun h => h ∈ U) hs -> (forall x y, x ∈ U -> edge x y -> y ∈ U) -> size (U ∖ list_to_set acc) <= fuel ->
    (exists acc' new, ofold (dfs fuel next) acc hs = Ret acc' /\ dfs_post hs acc acc' new) \/
    (ofold (dfs fuel next) acc hs = Panic (B "commit not found in tree") /\ exists h n, h ∈ hs /\ rtc edge h n /\ next n = None).
  Proof.
    intros Hok U hs. induction hs as [|h hs IH]; intros acc Hhs HU Hs.
    - left. exists acc, []. split; [done|]. split; try done; try set_solver.
      intros [|??]; done.
    - apply Forall_cons in Hhs as [Hh Hhs]. cbn [ofold].
      destruct (Hok U acc h Hh HU Hs) as [(acc1 & new1 & -> & P1)|(-> & n & Hn)].
      2:{ right. split; [done|]. exists h, n. set_solver. }
      cbn [obind]. destruct (IH acc1 Hhs HU) as [(acc2 & new2 & -> & P2)|(-> & h' & n & ?)].
      { etransitivity; [|exact Hs]. apply subseteq_size. rewrite (dp_app _ _ _ _ P1). set_solver. }
      2:{ right. split; [done|]. exists h', n. set_solver. }
      left. exists acc2, (new2 ++ new1). split; [done|]. destruct P1, P2. split.
      + rewrite dp_app1, dp_app0. by rewrite app_assoc.
      + auto.
      + constructor; [|done]. rewrite dp_app1. apply Forall_cons in dp_in0 as [? _]. set_solver.
      + intros n [Hn|Hn]%elem_of_app; [apply dp_reach1 in Hn as (x&?&?)|apply dp_reach0 in Hn as (x&?&?)]; exists x; set_solver.
      + intros n [Hn|Hn]%elem_of_app; [by apply dp_closed1|]. apply dp_closed0 in Hn as (ps & ? & F).
        exists ps. split; [done|]. eapply Forall_impl; [done|]. intros x Hx. cbn in *. rewrite dp_app1. set_solver.
      + intros l1 n l2 Heq. apply app_eq_inv in Heq as [(k & Hk1 & Hk2)|(k & Hk1 & Hk2)].
        * destruct k as [|k0 k].
          -- cbn in Hk2. destruct (dp_order0 [] n l2 (eq_sym Hk2)) as [?|?]; [|by right]. left. set_solver.
          -- cbn in Hk2. injection Hk2 as -> ->. destruct (dp_order1 l1 k0 k Hk1) as [?|(m & ? & ?)]; [left; set_solver|].
             right. exists m. set_solver.
        * destruct (dp_order0 k n l2 Hk2) as [?|?]; [left; set_solver|by right].
  Qed.

  Lemma dfs_correct fuel : dfs_ok fuel.
  Proof.
    induction fuel as [|fuel IH]; intros U acc h Hh HU Hs; cbn [dfs].
    - destruct (decide (h ∈ acc)) as [Hin|Hin].
      + left. exists acc, []. split; [done|]. split; try done; try set_solver; try (by intros [|??]); try (by apply Forall_singleton).
      + exfalso. assert (h ∈ U ∖ list_to_set acc) by set_solver.
        assert (U ∖ list_to_set acc ≡ ∅) as E by (apply size_empty_iff; lia). set_solver.
    - destruct (decide (h ∈ acc)) as [Hin|Hin].
      { left. exists acc, []. split; [done|]. split; try done; try set_solver; try (by intros [|??]); try (by apply Forall_singleton). }
      destruct (next h) as [ps|] eqn:En.
      2:{ right. split; [done|]. exists h. split; [apply rtc_refl|done]. }
      destruct (dfs_fold fuel IH U ps (h :: acc)) as [(acc' & new & -> & P)|(-> & h' & n & H1 & H2 & H3)].
      + apply Forall_forall. intros y Hy. eapply HU; [exact Hh|]. by exists ps.
      + done.
      + assert (size (U ∖ list_to_set acc) = S (size (U ∖ list_to_set (h :: acc)))); [|lia].
        assert (U ∖ list_to_set acc = {[h]} ∪ U ∖ list_to_set (h :: acc)) as ->.
        { apply set_eq. intros x. cbn. destruct (decide (x = h)); set_solver. }
        rewrite size_union by set_solver. by rewrite size_singleton.
      + left. exists acc', (new ++ [h]). split; [done|]. destruct P. split.
        * rewrite dp_app0. by rewrite <-app_assoc.
        * intros Hnd. apply dp_nodup0. by constructor.
        * constructor; [|done]. rewrite dp_app0. set_solver.
        * intros n [Hn|Hn]%elem_of_app.
          -- apply dp_reach0 in Hn as (y & Hy & Hr). exists h. split; [set_solver|]. eapply rtc_l; [|done]. by exists ps.
          -- exists h. split; [set_solver|]. apply elem_of_list_singleton in Hn as ->. apply rtc_refl.
        * intros n [Hn|Hn]%elem_of_app; [by apply dp_closed0|]. apply elem_of_list_singleton in Hn as ->. by exists ps.
        * intros l1 n l2 Heq. apply app_eq_inv in Heq as [(k & Hk1 & Hk2)|(k & Hk1 & Hk2)].
          -- destruct k as [|k0 k].
             ++ cbn in Hk2. injection Hk2 as -> _. left. set_solver.
             ++ cbn in Hk2. injection Hk2 as -> ->. right.
                destruct (dp_order0 l1 k0 k Hk1) as [?|(m & ? & ?)]; [exists h|exists m]; [|set_solver].
                split; [set_solver|]. by exists ps.
          -- left. destruct k as [|? [|??]]; cbn in Hk2; simplify_eq. set_solver.
      + right. split; [done|]. exists n. split; [|done]. eapply rtc_l; [|done]. by exists ps.
  Qed.
End dfs.

(** ** On a graph *)
Definition universe (g : graph) (h : bytes) : gset bytes := {[h]} ∪ dom g ∪ list_to_set (concat ((map_to_list g).*2)).

Lemma size_list_to_set_le (l : list bytes) : size (list_to_set l : gset bytes) <= length l.
Proof.
  induction l as [|x l IH]; cbn; [by rewrite size_empty|].
  rewrite size_union_alt, size_singleton.
  assert (size (list_to_set l ∖ {[x]} : gset bytes) <= size (list_to_set l : gset bytes)) by (apply subseteq_size; set_solver). lia.
Qed.

Lemma universe_size g h acc : size (universe g h ∖ list_to_set acc) <= graph_fuel g.
Proof.
  etransitivity; [apply (subseteq_size _ (universe g h)); set_solver|]. unfold universe, graph_fuel.
  etransitivity; [apply (subseteq_size _ (list_to_set (h :: (map_to_list g).*1 ++ concat ((map_to_list g).*2))))|].
  - intros x Hx. apply elem_of_list_to_set. apply elem_of_union in Hx as [[Hx|Hx]%elem_of_union|Hx].
    + apply elem_of_singleton in Hx as ->. apply elem_of_list_here.
    + apply elem_of_list_further, elem_of_app. left. apply elem_of_dom in Hx as [ps Hps]. apply elem_of_list_fmap.
      exists (x, ps). split; [done|]. by apply elem_of_map_to_list.
    + apply elem_of_list_further, elem_of_app. right. by apply elem_of_list_to_set in Hx.
  - etransitivity; [apply size_list_to_set_le|]. cbn. rewrite app_length, fmap_length. lia.
Qed.

Lemma universe_parent g h x y : parent g x y -> y ∈ universe g h.
Proof.
  unfold parent, parents, universe. intros H. destruct (g !! x) as [ps|] eqn:E; cbn in H; [|set_solver].
  apply elem_of_union_r, elem_of_list_to_set, elem_of_concat. exists ps. split; [done|].
  apply elem_of_list_fmap. exists (x, ps). split; [done|]. by apply elem_of_map_to_list.
Qed.

(** A traversal whose successors are parents in the graph. *)
Definition sub_next (g : graph) (next : bytes -> option (list bytes)) : Prop :=
  forall x ps, next x = Some ps -> forall y, y ∈ ps -> parent g x y.

Lemma rtc_edge_reaches g next x y : sub_next g next -> rtc (edge next) x y -> reaches g x y.
Proof. intros H. apply rtc_subrel. intros a b (ps & H1 & H2). by eapply H. Qed.

Lemma dfs_graph g next h :
  sub_next g next ->
  (exists acc, dfs (graph_fuel g) next [] h = Ret acc /\ dfs_post next [h] [] acc acc) \/
  (dfs (graph_fuel g) next [] h = Panic (B "commit not found in tree") /\ exists n, rtc (edge next) h n /\ next n = None).
Proof.
  intros Hsub. destruct (dfs_correct next (graph_fuel g) (universe g h) [] h) as [(acc & new & H1 & H2)|?].
  - unfold universe. set_solver.
  - intros x y _ (ps & Hn & Hy). eapply universe_parent. by eapply Hsub.
  - apply universe_size.
  - left. exists acc. split; [done|]. pose proof (dp_app _ _ _ _ _ H2) as E. rewrite app_nil_r in E. by subst.
  - by right.
Qed.

(** The commits visited are exactly those reachable, each once. *)
Lemma dfs_exact next h acc : dfs_post next [h] [] acc acc -> lists_exactly acc (rtc (edge next) h).
Proof.
  intros P. split; [apply (dp_nodup _ _ _ _ _ P); constructor|]. intros x. split.
  - intros Hx. destruct (dp_reach _ _ _ _ _ P x Hx) as (h' & Hh & Hr). apply elem_of_list_singleton in Hh as ->. done.
  - intros Hr. assert (h ∈ acc) as Hin by (pose proof (dp_in _ _ _ _ _ P) as F; by apply Forall_cons in F as [? _]).
    pose proof (dp_closed _ _ _ _ _ P) as C. clear P.
    induction Hr as [|x y z (ps & Hn & Hy) _ IH]; [done|]. apply IH.
    destruct (C x Hin) as (ps' & Hn' & F). rewrite Hn in Hn'. injection Hn' as <-.
    rewrite Forall_forall in F. by apply F.
Qed.

(** The start is visited first, i.e. comes last; every other commit has a predecessor visited before it. *)
Lemma dfs_head_last next h acc : dfs_post next [h] [] acc acc -> exists l, acc = l ++ [h].
Proof.
  intros P. pose proof (dp_order _ _ _ _ _ P) as O.
  destruct acc as [|x l _] using rev_ind.
  { pose proof (dp_in _ _ _ _ _ P) as F. apply Forall_cons in F as [? _]. set_solver. }
  destruct (O l x [] eq_refl) as [?|(m & ? & _)]; [|set_solver]. exists l. set_solver.
Qed.
Lemma dfs_later next h acc l1 n l2 : dfs_post next [h] [] acc acc -> acc = l1 ++ n :: l2 -> n <> h -> exists m, m ∈ l2 /\ edge next m n.
Proof. intros P E Hn. destruct (dp_order _ _ _ _ _ P l1 n l2 E); [set_solver|done]. Qed.
