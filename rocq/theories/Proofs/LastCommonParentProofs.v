(** * C25: LastCommonParent *)
From Verif.Model Require Import Base GoStrings ParentsGraph Branches HistoryGraph.
From Verif.Spec Require Import CommitGraph.
From Verif.Proofs Require Import Dfs.
From Coq Require Import Lia.

Section lcp.
  Context (g : graph) (heads : list bytes).
  Notation n := (length heads).
  (** There is a path of [k] parent edges from head number [i] to [x]. *)
  Definition at_level (k : nat) (tr : trace) : Prop := exists h, heads !! tr.1 = Some h /\ nsteps (parent g) k h tr.2.
  Definition reached_spec (reached : gmap bytes (gset nat)) (P : trace -> Prop) : Prop :=
    forall i x, i ∈ default ∅ (reached !! x) <-> P (i, x).
  Definition common (x : bytes) : Prop := forall h, h ∈ heads -> reaches g h x.

  Lemma full_set (s : gset nat) : (forall i, i ∈ s -> i < n) -> size s = n <-> forall i, i < n -> i ∈ s.
  Proof.
    intros Hs. assert (s ⊆ set_seq 0 n) as Hsub by (intros i Hi; apply elem_of_set_seq; specialize (Hs i Hi); lia).
    assert (size (set_seq 0 n : gset nat) = n) as Hsz by apply size_set_seq.
    split.
    - intros E i Hi. destruct (decide (i ∈ s)) as [?|Hni]; [done|]. exfalso.
      assert (s ⊂ set_seq 0 n) as Hss.
      { split; [done|]. intros H. apply Hni, H, elem_of_set_seq. lia. }
      apply subset_size in Hss. lia.
    - intros H. assert (s ≡ set_seq 0 n) as ->; [|done]. intros i. rewrite elem_of_set_seq. split; [intros Hi%Hs; lia|intros; apply H; lia].
  Qed.

  Lemma at_level_idx k tr : at_level k tr -> tr.1 < n.
  Proof. intros (h & Hh & _). by apply lookup_lt_Some in Hh. Qed.

  (** One level: with [todo] the part of the level still to do and [dn] the traces marked before. *)
  Lemma level_spec k reached todo ntr (dn : trace -> Prop) (ps : list trace) :
    (forall tr, tr ∈ todo -> at_level k tr) -> (forall tr, dn tr -> exists j, at_level j tr) ->
    reached_spec reached dn -> (forall x, ~ forall i, i < n -> dn (i, x)) ->
    (forall i y, (i, y) ∈ ntr <-> exists x, (i, x) ∈ ps /\ parent g x y) ->
    match lcp_level g n reached todo ntr with
    | inl c => forall i, i < n -> exists j, at_level j (i, c)
    | inr (reached', ntr') =>
        reached_spec reached' (fun tr => dn tr \/ tr ∈ todo) /\ (forall x, ~ forall i, i < n -> dn (i, x) \/ (i, x) ∈ todo) /\
        (forall i y, (i, y) ∈ ntr' <-> exists x, (i, x) ∈ ps ++ todo /\ parent g x y)
    end.
  Proof.
    revert reached ntr dn ps. induction todo as [|tr todo IH]; intros reached ntr dn ps Ht Hd Hr Hn Hntr; cbn [lcp_level].
    - split_and!.
      + intros i x. rewrite (Hr i x). set_solver.
      + intros x H. apply (Hn x). intros i Hi. destruct (H i Hi); [done|set_solver].
      + intros i y. by rewrite app_nil_r.
    - destruct tr as [i0 x0]. unfold mark_reach. cbn [fst snd].
      set (s := {[i0]} ∪ default ∅ (reached !! x0)).
      assert (forall i x, i ∈ default ∅ (<[x0 := s]> reached !! x) <-> dn (i, x) \/ (i, x) = (i0, x0)) as Hr'.
      { intros i x. destruct (decide (x = x0)) as [->|Hx].
        - rewrite lookup_insert. cbn. unfold s. rewrite elem_of_union, elem_of_singleton, (Hr i x0).
          split; [intros [->|?]; auto|intros [?|[= ->]]; auto].
        - rewrite lookup_insert_ne by done. rewrite (Hr i x). split; [auto|intros [?|[= ??]]; done]. }
      assert (forall i, i ∈ s <-> dn (i, x0) \/ i = i0) as Hs.
      { intros i. specialize (Hr' i x0). rewrite lookup_insert in Hr'. cbn in Hr'. rewrite Hr'. split; (intros [?|?]; [by left|right; congruence]). }
      assert (at_level k (i0, x0)) as Hl0 by (apply Ht; set_solver).
      assert (forall i, i ∈ s -> i < n) as Hsn.
      { intros i [Hi| ->]%Hs; [destruct (Hd _ Hi) as [j Hj]; by apply at_level_idx in Hj|by apply at_level_idx in Hl0]. }
      case_bool_decide as Hsz; cbn iota.
      + intros i Hi. apply (proj1 (full_set s Hsn) Hsz) in Hi. apply Hs in Hi as [Hi| ->]; [by apply Hd|by exists k].
      + pose proof (IH (<[x0 := s]> reached) (ntr ++ map (pair i0) (default [] (g !! x0))) (fun tr => dn tr \/ tr = (i0, x0)) (ps ++ [(i0, x0)])) as K.
        assert (forall tr, tr ∈ todo -> at_level k tr) as P1 by set_solver.
        assert (forall tr, dn tr \/ tr = (i0, x0) -> exists j, at_level j tr) as P2.
        { intros tr [?| ->]; [by apply Hd|by exists k]. }
        assert (forall x, ~ forall i, i < n -> dn (i, x) \/ (i, x) = (i0, x0)) as P4.
        { intros x H. destruct (decide (x = x0)) as [->|Hx].
          - apply Hsz, (full_set s Hsn). intros i Hi. apply Hs. destruct (H i Hi) as [?|[= ->]]; auto.
          - apply (Hn x). intros i Hi. destruct (H i Hi) as [?|[= ??]]; done. }
        assert (forall i y, (i, y) ∈ ntr ++ map (pair i0) (default [] (g !! x0)) <-> exists x, (i, x) ∈ ps ++ [(i0, x0)] /\ parent g x y) as P5.
        { intros i y. rewrite elem_of_app, Hntr. split.
          - intros [(x & ? & ?)|(p & [= -> ->] & Hp)%elem_of_list_fmap]; [exists x; set_solver|]. exists x0. split; [set_solver|done].
          - intros (x & [Hx|Hx]%elem_of_app & Hp); [left; by exists x|]. right. apply elem_of_list_singleton in Hx. injection Hx as -> ->.
            apply elem_of_list_fmap. by exists y. }
        specialize (K P1 P2 Hr' P4 P5).
        destruct (lcp_level g n (<[x0:=s]> reached) todo (ntr ++ map (pair i0) (default [] (g !! x0)))) as [c|[reached' ntr']]; [exact K|].
        destruct K as (K1 & K2 & K3). split_and!.
        * intros i x. rewrite (K1 i x). rewrite elem_of_cons. tauto.
        * intros x H. apply (K2 x). intros i Hi. specialize (H i Hi). rewrite elem_of_cons in H. tauto.
        * intros i y. rewrite K3. by rewrite <-app_assoc.
  Qed.

  Lemma at_level_S k i y : at_level (S k) (i, y) <-> exists x, at_level k (i, x) /\ parent g x y.
  Proof.
    unfold at_level. cbn. split.
    - intros (h & Hh & Hs). apply nsteps_inv_r in Hs as (x & Hx & Hp). exists x. split; [|done]. by exists h.
    - intros (x & (h & Hh & Hs) & Hp). exists h. split; [done|]. eapply nsteps_r; done.
  Qed.

  Lemma loop_spec fuel k reached curr :
    (forall i x, (i, x) ∈ curr <-> at_level k (i, x)) ->
    reached_spec reached (fun tr => exists j, j < k /\ at_level j tr) ->
    (forall x, ~ forall i, i < n -> exists j, j < k /\ at_level j (i, x)) -> curr <> [] ->
    match lcp_loop fuel g n reached curr with
    | Ret c => common c
    | Panic m => (m = B "all roots reached" /\ forall x, ~ common x) \/ (m = B "still running" /\ exists tr, at_level (k + fuel) tr)
    | Err _ => False
    end.
  Proof.
    revert k reached curr. induction fuel as [|fuel IH]; intros k reached curr Hc Hr Hn Hne; cbn [lcp_loop].
    - right. split; [done|]. destruct curr as [|[i x] r]; [done|]. exists (i, x). rewrite Nat.add_0_r. apply Hc. set_solver.
    - pose proof (level_spec k reached curr [] (fun tr => exists j, j < k /\ at_level j tr) []) as L.
      assert (forall tr, tr ∈ curr -> at_level k tr) as P1 by (intros [i x] ?; by apply Hc).
      specialize (L P1). destruct (lcp_level g n reached curr []) as [c|[reached' ntr]].
      + intros h Hh. apply elem_of_list_lookup in Hh as [i Hi].
        assert (exists j, at_level j (i, c)) as (j & h' & Hh' & Hs).
        { apply L; [|done|done| |by eapply lookup_lt_Some].
          - intros tr (j & _ & Hj). by exists j.
          - intros i' y. split; [set_solver|intros (?&?&?); set_solver]. }
        cbn in Hh'. rewrite Hi in Hh'. injection Hh' as <-. by eapply rtc_nsteps_2.
      + destruct L as (L1 & L2 & L3).
        { intros tr (j & _ & Hj). by exists j. } { done. } { done. }
        { intros i' y. split; [set_solver|intros (?&?&?); set_solver]. }
        cbn [app] in L3.
        assert (forall i x, (i, x) ∈ ntr <-> at_level (S k) (i, x)) as Hntr.
        { intros i x. rewrite L3, at_level_S. split; intros (y & Hy & Hp); exists y; (split; [by apply Hc|done]). }
        assert (forall i x, (exists j, j < S k /\ at_level j (i, x)) <-> (exists j, j < k /\ at_level j (i, x)) \/ (i, x) ∈ curr) as Hlt.
        { intros i x. rewrite Hc. split.
          - intros (j & Hj & Ha). destruct (decide (j = k)) as [->|?]; [by right|]. left. exists j. split; [lia|done].
          - intros [(j & Hj & Ha)|Ha]; [exists j; split; [lia|done]|exists k; split; [lia|done]]. }
        assert (forall x, ~ forall i, i < n -> exists j, j < S k /\ at_level j (i, x)) as Hn'.
        { intros x H. apply (L2 x). intros i Hi. by apply Hlt, H. }
        destruct ntr as [|t0 ntr].
        * left. split; [done|]. intros x Hx. apply (Hn' x). intros i Hi.
          destruct (lookup_lt_is_Some_2 heads i Hi) as [h Hh].
          assert (reaches g h x) as [j Hj]%rtc_nsteps_1 by (apply Hx; by eapply elem_of_list_lookup_2).
          assert (forall j y, nsteps (parent g) j h y -> j < S k) as Hbound.
          { clear -Hntr Hh. induction j as [|j IHj]; intros y Hy; [lia|].
            apply nsteps_inv_r in Hy as (z & Hz & Hp). specialize (IHj z Hz).
            destruct (decide (j = k)) as [->|?]; [|lia]. exfalso.
            assert ((i, y) ∈ @nil trace) as X; [|set_solver]. apply Hntr, at_level_S. exists z. split; [|done]. by exists h. }
          exists j. split; [by eapply Hbound|]. by exists h.
        * specialize (IH (S k) reached' (t0 :: ntr) Hntr). replace (k + S fuel) with (S k + fuel) by lia.
          apply IH; [|done|done]. intros i x. rewrite (L1 i x). symmetry. apply Hlt.
  Qed.
End lcp.

Lemma nsteps_path g k h x : acyclic g -> nsteps (parent g) k h x -> exists l, length l = S k /\ NoDup l /\ forall y, y ∈ l -> reaches g h y.
Proof.
  intros Hac Hn. induction Hn as [x|k x y z Hxy _ (l & H1 & H2 & H3)].
  - exists [x]. split_and!; [done|apply NoDup_singleton|]. intros y ->%elem_of_list_singleton. apply rtc_refl.
  - exists (x :: l). split_and!; [cbn; lia| |].
    + constructor; [|done]. intros Hx. apply H3 in Hx. apply (Hac x). eapply tc_rtc_r; [by constructor|done].
    + intros w [->|Hw]%elem_of_cons; [apply rtc_refl|]. eapply rtc_l; [done|]. by apply H3.
Qed.
Lemma nsteps_bound g k h x : acyclic g -> nsteps (parent g) k h x -> k < graph_fuel g.
Proof.
  intros Hac Hn. destruct (nsteps_path g k h x Hac Hn) as (l & H1 & H2 & H3).
  assert (size (list_to_set l : gset bytes) = S k) as Hsz by (by rewrite size_list_to_set).
  assert ((list_to_set l : gset bytes) ⊆ universe g h) as Hsub.
  { intros y Hy. apply elem_of_list_to_set, H3 in Hy. apply rtc_inv_r in Hy as [->|(z & _ & Hp)].
    - unfold universe. set_solver.
    - by eapply universe_parent. }
  apply subseteq_size in Hsub. pose proof (universe_size g h []). cbn in *.
  assert (size (universe g h ∖ ∅) = size (universe g h)) as E by (f_equal; set_solver). lia.
Qed.

Lemma lcp_correct g heads fuel : acyclic g -> heads <> [] -> graph_fuel g <= fuel ->
  (exists c, last_common_parent fuel g heads = Ret c /\ common g heads c) \/
  (last_common_parent fuel g heads = Panic (B "all roots reached") /\ forall x, ~ common g heads x).
Proof.
  intros Hac Hne Hf. unfold last_common_parent.
  pose proof (loop_spec g heads fuel 0 ∅ (imap pair heads)) as L.
  assert (forall i x, (i, x) ∈ imap pair heads <-> at_level g heads 0 (i, x)) as P1.
  { intros i x. rewrite elem_of_lookup_imap. unfold at_level. cbn. split.
    - intros (j & y & [= -> ->] & Hj). exists y. split; [done|constructor].
    - intros (h & Hh & Hs). inversion Hs; subst. by exists i, x. }
  assert (0 < length heads) as Hpos by (destruct heads; [done|cbn; lia]).
  specialize (L P1). destruct (lcp_loop fuel g (length heads) ∅ (imap pair heads)) as [c|e|m].
  - left. exists c. split; [done|]. apply L.
    + intros i x. rewrite lookup_empty. cbn. split; [set_solver|intros (j & ? & _); lia].
    + intros x H. destruct (H 0 Hpos) as (j & ? & _). lia.
    + by destruct heads.
  - exfalso. apply L.
    + intros i x. rewrite lookup_empty. cbn. split; [set_solver|intros (j & ? & _); lia].
    + intros x H. destruct (H 0 Hpos) as (j & ? & _). lia.
    + by destruct heads.
  - destruct L as [[-> H]|[-> ([i x] & h & Hh & Hs)]].
    + intros i x. rewrite lookup_empty. cbn. split; [set_solver|intros (j & ? & _); lia].
    + intros x H. destruct (H 0 Hpos) as (j & ? & _). lia.
    + by destruct heads.
    + by right.
    + exfalso. apply nsteps_bound in Hs; [|done]. lia.
Qed.
