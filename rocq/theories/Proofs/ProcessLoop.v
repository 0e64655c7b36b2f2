(** * The loop over all commits of the log *)
From Verif.Model Require Import Base GoStrings IncBlame LogParser ParentsGraph Process.
From Verif.Spec Require Import Text UnifiedDiff Attribution GitLog CommitGraph History Processing.
From Verif.Proofs Require Import TextLemmas ParsePatch LogParse ParentsGraphProofs BlameOf ProcessRegular ProcessMerge.
From Coq Require Import Lia.

(** ** Parts of a merge are flushed by the next commit or the end *)
Definition out_step (x : pst * outcome unit) (f : pst -> pst * outcome unit) : pst * outcome unit :=
  match x with (s, Ret _) => f s | _ => x end.

Lemma flush_head e s cs :
  s_mparts s <> ∅ -> (forall c, head cs = Some c -> s_mcommit s <> lc_hash c) ->
  process_log e s cs = out_step (got_merge_parts e s) (fun s1 => process_log e s1 cs).
Proof.
  intros Hne Hhead. unfold process_log. destruct cs as [|c cs]; cbn [process_commits].
  - rewrite decide_False by done. unfold got_merge_parts. destruct (process_merge _ _ _ _ _) as [[r res]| |]; [|done..].
    cbn [out_step]. unfold finish_commit at 2. cbn [s_mparts]. by rewrite decide_True.
  - unfold process_commit at 1. rewrite decide_False by done. rewrite bool_decide_eq_false_2 by by apply Hhead.
    destruct (got_merge_parts e s) as [s1 o] eqn:Eg. unfold got_merge_parts in Eg.
    destruct (process_merge _ _ _ _ _) as [[r res]| |]; injection Eg as <- <-; [|done..]. cbn [out_step].
    unfold process_commit. rewrite (decide_True (P := s_mparts (finish_commit e s (s_mcommit s) r res) = ∅)) by done. done.
Qed.

Lemma log_regular e s c cs : s_mparts s = ∅ -> length (env_parents e (lc_hash c)) <= 1 ->
  process_log e s (c :: cs) = out_step (new_commit e s c) (fun s1 => process_log e s1 cs).
Proof.
  intros Hm Hl. unfold process_log. cbn [process_commits]. unfold process_commit at 1. rewrite decide_True by done.
  destruct (new_commit e s c) as [s1 [[]| |]]; done.
Qed.

(** All parts of one merge are collected. *)
Definition collect_parts (cs : list lcommit) (m : gmap bytes lcommit) : gmap bytes lcommit :=
  foldl (fun m lc => <[lc_from lc := lc]> m) m cs.
Definition with_parts (s : pst) (h : bytes) (m : gmap bytes lcommit) : pst :=
  PSt (s_repo s) (s_unload s) (s_done s) h m (s_last s) (s_out s).

Lemma log_parts e h gs : forall s cs, s_mparts s <> ∅ -> s_mcommit s = h -> Forall (fun lc => lc_hash lc = h) gs ->
  process_log e s (gs ++ cs) = process_log e (with_parts s h (collect_parts gs (s_mparts s))) cs.
Proof.
  induction gs as [|g gs IH]; intros s cs Hne Hh Hf.
  - cbn. subst h. by destruct s.
  - apply Forall_cons in Hf as [Hg Hf]. cbn [app]. unfold process_log at 1. cbn [process_commits]. unfold process_commit at 1.
    rewrite decide_False by done. rewrite bool_decide_eq_true_2 by congruence.
    match goal with |- context [process_commits e ?s1 (gs ++ cs)] => set (s' := s1) end.
    change (process_log e s' (gs ++ cs) = process_log e (with_parts s h (collect_parts (g :: gs) (s_mparts s))) cs).
    rewrite IH; [|apply insert_non_empty|done|done]. unfold with_parts, s'. cbn. done.
Qed.
Lemma log_merge e s g gs cs : s_mparts s = ∅ -> 1 < length (env_parents e (lc_hash g)) ->
  Forall (fun lc => lc_hash lc = lc_hash g) gs -> (forall c, head cs = Some c -> lc_hash g <> lc_hash c) ->
  process_log e s (g :: gs ++ cs) =
  out_step (got_merge_parts e (with_parts s (lc_hash g) (collect_parts (g :: gs) ∅))) (fun s1 => process_log e s1 cs).
Proof.
  intros Hm Hl Hf Hhead. unfold process_log at 1. cbn [process_commits]. unfold process_commit at 1. rewrite decide_True by done.
  unfold new_commit. rewrite decide_True by done.
  match goal with |- context [process_commits e ?s1 (gs ++ cs)] => set (s' := s1) end.
  change (process_log e s' (gs ++ cs) =
    out_step (got_merge_parts e (with_parts s (lc_hash g) (collect_parts (g :: gs) ∅))) (fun s1 => process_log e s1 cs)).
  assert (Hs' : s_mparts s' <> ∅) by (cbn; apply map_non_empty_singleton).
  rewrite (log_parts e (lc_hash g) gs s' cs Hs' eq_refl Hf).
  assert (Hne : collect_parts gs (s_mparts s') <> ∅).
  { clear -Hs'. revert Hs'. generalize (s_mparts s') as m. induction gs as [|x gs IH]; intros m Hm; [done|]. cbn. apply IH. apply insert_non_empty. }
  rewrite flush_head; [|done|done]. unfold with_parts, s'. cbn. done.
Qed.

(** ** Counting children *)
Lemma times_pos x l : 0 < times x l <-> x ∈ l.
Proof.
  unfold times. split.
  - intros Hl. destruct (filter (fun y => y = x) l) as [|y r] eqn:E; [cbn in Hl; lia|].
    assert (Hy : y ∈ filter (fun y => y = x) l) by (rewrite E; by constructor). apply elem_of_list_filter in Hy as [-> ?]. done.
  - intros Hx. assert (Hf : x ∈ filter (fun y => y = x) l) by by apply elem_of_list_filter.
    destruct (filter (fun y => y = x) l); [by apply elem_of_nil in Hf|cbn; lia].
Qed.
Lemma times_nodup x l : NoDup l -> times x l <= 1.
Proof.
  unfold times. induction 1 as [|y l Hy _ IH]; [cbn; lia|]. rewrite filter_cons. case_decide as E; [|done].
  subst y. cbn. enough (length (filter (fun y => y = x) l) = 0) by lia.
  destruct (filter (fun y => y = x) l) as [|z r] eqn:E; [done|].
  assert (Hz : z ∈ filter (fun y => y = x) l) by (rewrite E; by constructor). apply elem_of_list_filter in Hz as [-> ?]. done.
Qed.
Lemma times_le_nodup l : (forall x, times x l <= 1) -> NoDup l.
Proof.
  induction l as [|y l IH]; intros Ht; [constructor|]. constructor.
  - intros Hy%times_pos. specialize (Ht y). unfold times in *. rewrite filter_cons, decide_True in Ht by done. cbn in Ht. lia.
  - apply IH. intros x. specialize (Ht x). unfold times in *. rewrite filter_cons in Ht. case_decide; cbn in Ht; lia.
Qed.

Lemma drop_more {A} n (l' l : list A) x : x ∈ drop n l -> x ∈ drop n (l' ++ l).
Proof.
  intros Hx. destruct (decide (n <= length l')) as [Hle|Hgt].
  - rewrite drop_app_le by done. apply elem_of_app. right. rewrite <-(take_drop n l). apply elem_of_app. by right.
  - rewrite drop_app_ge by lia. apply elem_of_list_lookup in Hx as [i Hi]. rewrite lookup_drop in Hi. apply elem_of_list_lookup.
    exists (length l' + i). rewrite lookup_drop. rewrite <-Hi. f_equal. lia.
Qed.

Section loop.
  Context (k : nat) (H : history) (slow : bytes -> bytes -> outcome blame).
  Context (HV : valid_history k H) (Hk : 2 <= k) (HS : slow_blame_right H slow) (HA : acyclic (hi_parents H)).
  Context (e : env) (He : env_right H slow e).
  Notation MAX := max_commits_in_checkpoint.

  Lemma nodup_parents c : NoDup (hparents H c).
  Proof.
    destruct (decide (known H c)) as [Hc|Hc]; [by destruct (proj2 HV c Hc) as (_ & _ & ? & _)|].
    unfold hparents, parents. unfold known in Hc. destruct (hi_parents H !! c); [by destruct Hc|]. constructor.
  Qed.
  Lemma env_parents_eq c : env_parents e c = hparents H c.
  Proof. destruct He as (-> & _) || (unfold env_parents; destruct He as (E & _); rewrite E). done. Qed.

  (** The recorded children of a commit that is somebody's parent. *)
  Lemma children_of p d : p ∈ hparents H d -> exists l, e_children e !! p = Some l /\ NoDup l /\ forall x, x ∈ l <-> p ∈ hparents H x.
  Proof.
    intros Hd. destruct He as (_ & (es & Hes & Ech) & _). destruct (children_spec (hi_parents H) es Hes) as [C1 C2]. rewrite Ech.
    destruct (proj2 (C1 p)) as [l Hl]; [right; by exists d|]. exists l. split; [done|].
    destruct (C2 p l Hl) as [_ Ht]. split.
    - apply times_le_nodup. intros x. rewrite Ht. apply times_nodup. apply nodup_parents.
    - intros x. rewrite <-times_pos, Ht, times_pos. done.
  Qed.

  Definition cnt (done : list bytes) (p : bytes) : nat := length (filter (fun d => p ∈ hparents H d) done).
  Lemma fires done c p : NoDup (done ++ [c]) -> p ∈ hparents H c ->
    S (cnt done p) = length (default [] (e_children e !! p)) <-> finished H (done ++ [c]) p.
  Proof.
    intros Hnd Hp. destruct (children_of p c Hp) as (l & -> & Hl & Hin). cbn [default from_option id].
    assert (Hcnt : S (cnt done p) = length (filter (fun d => p ∈ hparents H d) (done ++ [c]))).
    { unfold cnt. rewrite filter_app, app_length. rewrite (filter_cons_True (fun d => p ∈ hparents H d) c []) by done. cbn. lia. }
    rewrite Hcnt. clear Hcnt. set (F := filter (fun d => p ∈ hparents H d) (done ++ [c])).
    assert (HF : NoDup F) by by apply NoDup_filter.
    assert (HFin : forall d, d ∈ F <-> p ∈ hparents H d /\ d ∈ done ++ [c]) by (intros d; unfold F; rewrite elem_of_list_filter; done).
    assert (Hsub : F ⊆+ l) by (apply NoDup_submseteq; [done|]; intros d Hd; apply Hin; by apply HFin).
    split.
    - intros Hlen. assert (Hperm : F ≡ₚ l) by (apply submseteq_Permutation_length_eq; [lia|done]).
      split; [by exists c|]. intros d Hd. apply Hin in Hd. rewrite <-Hperm in Hd. by apply HFin in Hd as [_ ?].
    - intros [_ Hall]. assert (Hsub' : l ⊆+ F).
      { apply NoDup_submseteq; [done|]. intros d Hd. apply HFin. split; [by apply Hin|]. apply Hall. by apply Hin. }
      apply submseteq_length in Hsub. apply submseteq_length in Hsub'. lia.
  Qed.

  (** ** Trimming *)
  Lemma unload_spec N fin (r : repo) p : p ∉ fin -> NoDup fin ->
    (forall x, x ∈ drop N (rev fin) -> r !! x = None) ->
    forall q1 y, q1 = p :: take N (rev fin) ->
    y = (if decide (N < length q1) then (removelast q1, match last q1 with Some x => delete x r | None => r end) else (q1, r)) ->
    y.1 = take N (rev (fin ++ [p])) /\
    forall x, y.2 !! x = if decide (x ∈ drop N (rev (fin ++ [p]))) then None else r !! x.
  Proof.
    intros Hp Hnd Hr q1 y Eq1 ->. rewrite rev_app_distr. cbn [rev app]. set (L := rev fin) in *.
    assert (Hq1 : q1 = take (S N) (p :: L)) by done.
    assert (HndL : NoDup (p :: L)).
    { constructor; [unfold L; rewrite elem_of_list_In, <-in_rev, <-elem_of_list_In; done|unfold L; by rewrite <-Permutation_rev]. }
    case_decide as Hlt; cbn [fst snd].
    - assert (HlL : S N <= length (p :: L)) by (rewrite Hq1, take_length in Hlt; lia).
      destruct (lookup_lt_is_Some_2 (p :: L) N ltac:(lia)) as [x0 Hx0].
      assert (Hq2 : q1 = take N (p :: L) ++ [x0]) by (rewrite Hq1; by apply take_S_r).
      assert (Hdrop : drop N (p :: L) = x0 :: drop (S N) (p :: L)) by by apply drop_S.
      split; [rewrite Hq2; apply removelast_last|]. rewrite Hq2, last_snoc. intros x. rewrite Hdrop. cbn [drop].
      case_decide as Hx.
      + apply elem_of_cons in Hx as [->|Hx]; [by rewrite lookup_delete|].
        destruct (decide (x = x0)) as [->|Hne]; [by rewrite lookup_delete|]. rewrite lookup_delete_ne by done. by apply Hr.
      + apply not_elem_of_cons in Hx as [Hne Hx]. by rewrite lookup_delete_ne.
    - assert (HlL : length (p :: L) <= N) by (rewrite Hq1, take_length in Hlt; lia).
      split; [rewrite Hq1, !take_ge by lia; done|]. intros x. rewrite drop_ge by lia. by rewrite decide_False by apply not_elem_of_nil.
  Qed.

  Lemma trim_spec done c fin : NoDup (done ++ [c]) -> NoDup fin -> (forall p, p ∈ fin -> finished H done p) -> c ∉ done ->
    forall ps2 ps1 dn (q : list bytes) (r : repo) new, ps1 ++ ps2 = hparents H c ->
    (forall p, default 0 (dn !! p) = cnt done p + (if decide (p ∈ ps1) then 1 else 0)) ->
    q = take MAX (rev (fin ++ new)) -> NoDup new -> (forall p, p ∈ new <-> p ∈ ps1 /\ finished H (done ++ [c]) p) ->
    (forall x, x ∈ drop MAX (rev (fin ++ new)) -> r !! x = None) ->
    exists more, let new' := new ++ more in let t := trim (e_children e) ps2 (dn, (q, r)) in
      (forall p, default 0 (t.1 !! p) = cnt done p + (if decide (p ∈ hparents H c) then 1 else 0)) /\
      t.2.1 = take MAX (rev (fin ++ new')) /\ NoDup new' /\ (forall p, p ∈ new' <-> p ∈ hparents H c /\ finished H (done ++ [c]) p) /\
      (forall x, t.2.2 !! x = if decide (x ∈ drop MAX (rev (fin ++ new'))) then None else r !! x).
  Proof.
    intros Hnd Hndf Hfin Hcd ps2. induction ps2 as [|p ps2 IH]; intros ps1 dn q r new Hps Hdn Hq Hnn Hnew Hr.
    - rewrite app_nil_r in Hps. subst ps1. exists []. rewrite app_nil_r. cbn. split_and!; try done. intros x. case_decide; [by apply Hr|done].
    - assert (Hp1 : p ∉ ps1).
      { pose proof (nodup_parents c) as Hn. rewrite <-Hps in Hn. apply NoDup_app in Hn as (_ & Hn & _). intros ?. eapply Hn; [done|by constructor]. }
      assert (Hpc : p ∈ hparents H c) by (rewrite <-Hps; set_solver).
      change (trim (e_children e) (p :: ps2) (dn, (q, r))) with (trim (e_children e) ps2 (trim_one (e_children e) (dn, (q, r)) p)).
      unfold trim_one. cbn [fst snd]. rewrite (Hdn p), (decide_False (P := p ∈ ps1)) by done. rewrite Nat.add_0_r.
      assert (Hdn' : forall x, default 0 (<[p := S (cnt done p)]> dn !! x) = cnt done x + (if decide (x ∈ ps1 ++ [p]) then 1 else 0)).
      { intros x. destruct (decide (x = p)) as [->|Hne].
        - rewrite lookup_insert. cbn. rewrite decide_True by set_solver. lia.
        - rewrite lookup_insert_ne by done. rewrite Hdn. destruct (decide (x ∈ ps1)); [rewrite decide_True by set_solver; done|].
          rewrite decide_False by set_solver. done. }
      assert (Hpnf : p ∉ fin) by (intros Hf; apply Hfin in Hf as [_ Hf]; by apply Hcd, Hf).
      assert (Hpnn : p ∉ new) by (intros [? _]%Hnew; done).
      pose proof (fires done c p Hnd Hpc) as Hfire. destruct (decide (S (cnt done p) = _)) as [Hy|Hn].
      + assert (Hndn : NoDup (fin ++ new)).
        { apply NoDup_app. split_and!; [done| |done]. intros x Hx [Hx1 _]%Hnew. apply Hfin in Hx as [_ Hx].
          assert (x ∈ hparents H c) as Hxc by (rewrite <-Hps; set_solver). by apply Hcd, Hx. }
        destruct (unload_spec MAX (fin ++ new) r p ltac:(set_solver) Hndn Hr (p :: q) (unload q r p) ltac:(by subst q) eq_refl) as [U1 U2].
        set (y := unload q r p) in *. clearbody y.
        rewrite <-(app_assoc fin new [p]) in U1. rewrite <-(app_assoc fin new [p]) in U2.
        destruct (IH (ps1 ++ [p]) (<[p := S (cnt done p)]> dn) y.1 y.2 (new ++ [p])) as (more & T1 & T2 & T3 & T4 & T5).
        * by rewrite <-app_assoc.
        * done.
        * done.
        * apply NoDup_app. split_and!; [done|set_solver|apply NoDup_singleton].
        * intros x. rewrite !elem_of_app, Hnew, !elem_of_list_singleton. apply Hfire in Hy. naive_solver.
        * intros x Hx. rewrite U2. by rewrite decide_True.
        * exists (p :: more). rewrite <-app_assoc in *. cbn [app] in *. destruct y as [y1 y2]. cbn [fst snd] in *. split_and!; try done.
          intros x. rewrite T5, U2.
          destruct (decide (x ∈ drop MAX (rev (fin ++ new ++ p :: more)))) as [|Hx]; [done|].
          rewrite decide_False; [done|]. intros Hx'. apply Hx.
          replace (fin ++ new ++ p :: more) with ((fin ++ new ++ [p]) ++ more) by (rewrite <-!app_assoc; done).
          rewrite rev_app_distr. by apply drop_more.
      + destruct (IH (ps1 ++ [p]) (<[p := S (cnt done p)]> dn) q r new) as (more & T1 & T2 & T3 & T4 & T5); [by rewrite <-app_assoc|done..| |done|].
        * intros x. rewrite Hnew, elem_of_app, elem_of_list_singleton. naive_solver.
        * exists more. done.
  Qed.

  (** ** The log entries of one commit *)
  Definition group (c : bytes) : list lcommit := map commit_of (entries_of H c).
  Lemma group_hash c lc : lc ∈ group c -> lc_hash lc = c.
  Proof.
    intros Hin. apply elem_of_list_fmap in Hin as (en & -> & Hin). cbn. unfold entries_of in Hin.
    destruct (hparents H c) as [|p [|p' l]]; [apply elem_of_list_singleton in Hin; by subst|apply elem_of_list_singleton in Hin; by subst|].
    destruct (filter _ _) as [|q qs]; [apply elem_of_list_singleton in Hin; by subst|].
    apply elem_of_list_fmap in Hin as (x & -> & _). done.
  Qed.
  Lemma group_cons c : exists g gs, group c = g :: gs.
  Proof.
    unfold group, entries_of. destruct (hparents H c) as [|p [|p' l]]; [by eexists _, _..|].
    destruct (filter _ _) as [|q qs]; by eexists _, _.
  Qed.
  Lemma group_regular c : length (hparents H c) <= 1 ->
    exists lc, group c = [lc] /\ lc_hash lc = c /\ lc_changes lc = map change_text (patches_of H c).
  Proof.
    intros Hl. unfold group, entries_of, patches_of. destruct (hparents H c) as [|p [|p' l]]; cbn in Hl; [by eexists..|lia].
  Qed.
  Lemma collect_lookup gs : forall m p lc, collect_parts gs m !! p = Some lc -> m !! p = Some lc \/ lc ∈ gs /\ lc_from lc = p.
  Proof.
    induction gs as [|g gs IH]; intros m p lc Hl; [by left|]. cbn in Hl. destruct (IH _ _ _ Hl) as [Hm|[? ?]].
    - destruct (decide (p = lc_from g)) as [->|Hne].
      + rewrite lookup_insert in Hm. injection Hm as <-. right. split; [by constructor|done].
      + rewrite lookup_insert_ne in Hm by done. by left.
    - right. split; [by constructor|done].
  Qed.
  Lemma collect_some gs : forall m lc, lc ∈ gs \/ is_Some (m !! lc_from lc) -> is_Some (collect_parts gs m !! lc_from lc).
  Proof.
    induction gs as [|g gs IH]; intros m lc Hin; [destruct Hin as [Hin|?]; [by apply elem_of_nil in Hin|done]|].
    cbn. apply IH. destruct Hin as [[->|?]%elem_of_cons|Hs]; [right; by rewrite lookup_insert|by left|right].
    destruct (decide (lc_from g = lc_from lc)) as [->|]; [by rewrite lookup_insert|by rewrite lookup_insert_ne].
  Qed.
  Lemma group_parts c : 1 < length (hparents H c) -> parts_ok H c (collect_parts (group c) ∅).
  Proof.
    intros Hl.
    assert (Hg : forall lc, lc ∈ group c <->
      (exists p, p ∈ hparents H c /\ hi_diff H c p <> [] /\ lc = LCommit c p (map change_text (hi_diff H c p))) \/
      (filter (fun p => hi_diff H c p <> []) (hparents H c) = [] /\ lc = LCommit c [] [])).
    { intros lc. unfold group, entries_of. destruct (hparents H c) as [|p [|p' l]]; cbn in Hl; [lia..|].
      set (P := p :: p' :: l). destruct (filter (fun p => hi_diff H c p <> []) P) as [|q qs] eqn:Ef.
      - cbn. rewrite elem_of_list_singleton. split; [intros ->; by right|]. intros [(x & Hx & Hd & _)|[_ ?]]; [|done].
        assert (x ∈ filter (fun p => hi_diff H c p <> []) P) as Hin by by apply elem_of_list_filter. rewrite Ef in Hin. by apply elem_of_nil in Hin.
      - rewrite <-Ef. rewrite map_map. split.
        + intros Hin. apply elem_of_list_fmap in Hin as (x & -> & Hx). apply elem_of_list_filter in Hx as [? ?]. left. by exists x.
        + intros [(x & Hx & Hd & ->)|[Hn _]]; [|rewrite Ef in Hn; done]. apply elem_of_list_fmap. exists x. split; [done|]. by apply elem_of_list_filter. }
    split.
    - intros par lc Hp. destruct (collect_lookup _ _ _ _ Hp) as [Hx|[Hin <-]]; [by rewrite lookup_empty in Hx|].
      apply Hg in Hin as [(p & Hpp & Hd & ->)|[_ ->]]; [left|right]; done.
    - intros p Hp Hd. split.
      + apply (collect_some (group c) ∅ (LCommit c p (map change_text (hi_diff H c p)))). left. apply Hg. left. by exists p.
      + intros lc Hlc. destruct (collect_lookup _ _ _ _ Hlc) as [Hx|[Hin Hf]]; [by rewrite lookup_empty in Hx|].
        apply Hg in Hin as [(p' & _ & _ & ->)|[Hn _]]; [cbn in Hf; by subst|].
        assert (p ∈ filter (fun p => hi_diff H c p <> []) (hparents H c)) as Hin by by apply elem_of_list_filter.
        rewrite Hn in Hin. by apply elem_of_nil in Hin.
  Qed.

  (** ** The invariant of the loop *)
  Record linv (before : list bytes) (r0 : repo) (out0 : list result) (done : list bytes) (s : pst) (fin : list bytes) : Prop := LInv {
    li_count : forall p, default 0 (s_done s !! p) = cnt done p;
    li_nodup : NoDup fin;
    li_fin : forall p, p ∈ fin <-> finished H done p;
    li_order : forall i j p q n, i < j -> fin !! i = Some p -> fin !! j = Some q ->
      finished H (take n done) q -> finished H (take n done) p;
    li_unload : s_unload s = take MAX (rev fin);
    li_repo : forall p, p ∈ before \/ p ∈ done -> if decide (p ∈ drop MAX (rev fin)) then s_repo s !! p = None else good H slow (s_repo s) p;
    li_other : forall x, x ∉ before -> x ∉ done -> if decide (x ∈ drop MAX (rev fin)) then s_repo s !! x = None else s_repo s !! x = r0 !! x;
    li_out : exists rs, s_out s = out0 ++ rs /\ Forall2 (commit_right H slow) done rs;
    li_parts : s_mparts s = ∅;
    li_last : s_last s = default (s_last (pst_init r0)) (last done) }.

  Lemma finished_mono l1 l2 p : (forall d, d ∈ l1 -> d ∈ l2) -> finished H l1 p -> finished H l2 p.
  Proof. intros Hs [? Ha]. split; [done|]. intros d Hd. by apply Hs, Ha. Qed.

  Lemma finish_inv before r0 out0 done s fin c (s1 : pst) (r' : repo) res :
    linv before r0 out0 done s fin -> NoDup (done ++ [c]) -> (forall d, d ∈ done -> c ∉ hparents H d) -> c ∉ hparents H c ->
    s_done s1 = s_done s -> s_unload s1 = s_unload s -> s_out s1 = s_out s ->
    (forall x, x <> c -> r' !! x = s_repo s !! x) -> good H slow r' c -> commit_right H slow c res ->
    exists fin', linv before r0 out0 (done ++ [c]) (finish_commit e s1 c r' res) fin'.
  Proof.
    intros [Ic Ind If Io Iu Ir Ix (rs & Iout & Irs) Ip Il] Hnd Hnc Hncc E1 E2 E3 Hr Hg Hres.
    assert (Hcd : c ∉ done) by (apply NoDup_app in Hnd as (_ & Hn & _); intros ?; eapply Hn; [done|by constructor]).
    assert (Hcf : c ∉ fin).
    { intros Hin%If. destruct Hin as [[d Hd] Hall]. eapply Hnc; [by apply Hall|done]. }
    assert (Hev : forall x, x ∈ drop MAX (rev fin) -> r' !! x = None).
    { intros x Hx. assert (Hxf : x ∈ fin).
      { assert (x ∈ rev fin) as Hin by (rewrite <-(take_drop MAX (rev fin)); apply elem_of_app; by right).
        by rewrite elem_of_list_In, <-in_rev, <-elem_of_list_In in Hin. }
      rewrite Hr by (intros ->; done). destruct (decide (x ∈ before \/ x ∈ done)) as [Hb|Hb].
      - specialize (Ir x Hb). by rewrite decide_True in Ir.
      - specialize (Ix x ltac:(tauto) ltac:(tauto)). by rewrite decide_True in Ix. }
    destruct (trim_spec done c fin Hnd Ind (fun p Hp => proj1 (If p) Hp) Hcd (hparents H c) [] (s_done s1) (s_unload s1) r' [])
      as (new & T1 & T2 & T3 & T4 & T5).
    { done. }
    { intros p. rewrite E1, Ic. rewrite decide_False by apply not_elem_of_nil. lia. }
    { by rewrite app_nil_r, E2. }
    { constructor. }
    { intros p. split; [intros Hp; by apply elem_of_nil in Hp|intros [Hp _]; by apply elem_of_nil in Hp]. }
    { by rewrite app_nil_r. }
    cbn [app] in *. set (t := trim _ _ _) in *.
    assert (Ht : trim (e_children e) (env_parents e c) (s_done s1, (s_unload s1, r')) = t) by (unfold t; by rewrite env_parents_eq).
    unfold finish_commit. rewrite Ht. clear Ht.
    assert (Hfin' : forall p, p ∈ fin ++ new <-> finished H (done ++ [c]) p).
    { intros p. rewrite elem_of_app, T4, If. split.
      - intros [Hp|[_ Hp]]; [|done]. eapply finished_mono; [|done]. intros d Hd. set_solver.
      - intros Hp. destruct (decide (p ∈ hparents H c)) as [Hpc|Hpc]; [by right|left].
        destruct Hp as [? Hp]. split; [done|]. intros d Hd. specialize (Hp d Hd). apply elem_of_app in Hp as [?|Hp%elem_of_list_singleton]; [done|].
        by subst d. }
    assert (Hnd' : NoDup (fin ++ new)).
    { apply NoDup_app. split_and!; [done| |done]. intros p [_ Hp]%If [Hpc _]%T4. by apply Hcd, Hp. }
    exists (fin ++ new). split; cbn [s_repo s_unload s_done s_mparts s_last s_out].
    - intros p. rewrite T1. unfold cnt. rewrite filter_app, app_length. destruct (decide (p ∈ hparents H c)) as [Hp|Hp].
      + rewrite (filter_cons_True (fun d => p ∈ hparents H d) c []) by done. cbn. lia.
      + rewrite (filter_cons_False (fun d => p ∈ hparents H d) c []) by done. cbn. lia.
    - done.
    - done.
    - intros i j p q n Hij Hi Hj Hq. destruct (decide (n <= length done)) as [Hn|Hn].
      + rewrite take_app_le in * by done.
        assert (Hqf : q ∈ fin) by (apply If; eapply finished_mono; [|done]; intros d Hd; rewrite <-(take_drop n done); apply elem_of_app; by left).
        assert (Hjl : j < length fin).
        { destruct (decide (j < length fin)) as [|Hge]; [done|]. apply elem_of_list_lookup in Hqf as [j' Hj'].
          assert ((fin ++ new) !! j' = Some q) as Hj2 by (rewrite lookup_app_l; [done|by eapply lookup_lt_Some]).
          pose proof (NoDup_lookup _ _ _ _ Hnd' Hj Hj2) as ->. by destruct Hge; eapply lookup_lt_Some. }
        rewrite lookup_app_l in Hi, Hj by lia. exact (Io i j p q n Hij Hi Hj Hq).
      + rewrite take_ge by (rewrite app_length; cbn; lia). apply Hfin'. by eapply elem_of_list_lookup_2.
    - done.
    - intros p Hp. rewrite T5. destruct (decide (p ∈ drop MAX (rev (fin ++ new)))) as [|Hnev]; [done|].
      assert (Hnev' : p ∉ drop MAX (rev fin)) by (intros Hx; apply Hnev; rewrite rev_app_distr; by apply drop_more).
      assert (Hgp : good H slow r' p).
      { destruct (decide (p = c)) as [->|Hne]; [done|].
        assert (p ∈ before \/ p ∈ done) as Hp' by (destruct Hp as [?|Hp]; [by left|apply elem_of_app in Hp as [?|Hp%elem_of_list_singleton]; [by right|done]]).
        specialize (Ir p Hp'). rewrite decide_False in Ir by done. destruct Ir as (fs & Hfs & ?). exists fs. split; [|done]. by rewrite Hr. }
      destruct Hgp as (fs & Hfs & ?). exists fs. split; [|done]. rewrite T5. by rewrite decide_False.
    - intros x Hx1 Hx2. rewrite T5. destruct (decide (x ∈ drop MAX (rev (fin ++ new)))) as [|Hnev]; [done|].
      assert (Hnev' : x ∉ drop MAX (rev fin)) by (intros Hx; apply Hnev; rewrite rev_app_distr; by apply drop_more).
      rewrite Hr by set_solver. specialize (Ix x Hx1 ltac:(set_solver)). by rewrite decide_False in Ix.
    - exists (rs ++ [res]). rewrite E3, Iout, <-app_assoc. split; [done|]. apply Forall2_app; [done|]. by repeat constructor.
    - done.
    - by rewrite last_snoc.
  Qed.

  Lemma commit_step before r0 out0 done s fin c rest :
    linv before r0 out0 done s fin -> known H c -> NoDup (done ++ [c]) -> (forall d, d ∈ done -> c ∉ hparents H d) ->
    (forall p, p ∈ hparents H c -> p ∈ before \/ p ∈ done) -> plain_merge H c ->
    (forall lc, head rest = Some lc -> c <> lc_hash lc) ->
    exists s' fin', process_log e s (group c ++ rest) = process_log e s' rest /\ linv before r0 out0 (done ++ [c]) s' fin'.
  Proof.
    intros Hinv Hc Hnd Hnc Hpar Hplain Hhead.
    assert (Hcd : c ∉ done) by (apply NoDup_app in Hnd as (_ & Hn & _); intros ?; eapply Hn; [done|by constructor]).
    assert (Hncc : c ∉ hparents H c) by (by apply c_not_parent).
    assert (Hgood : forall p, p ∈ hparents H c -> good H slow (s_repo s) p).
    { intros p Hp. pose proof (li_repo _ _ _ _ _ _ Hinv p (Hpar p Hp)) as Hg. rewrite decide_False in Hg; [done|].
      intros Hx. assert (Hxf : p ∈ fin).
      { assert (p ∈ rev fin) as Hin by (rewrite <-(take_drop MAX (rev fin)); apply elem_of_app; by right).
        by rewrite elem_of_list_In, <-in_rev, <-elem_of_list_In in Hin. }
      apply (li_fin _ _ _ _ _ _ Hinv) in Hxf as [_ Hall]. by apply Hcd, Hall. }
    pose proof (li_parts _ _ _ _ _ _ Hinv) as Hparts.
    destruct (decide (1 < length (hparents H c))) as [Hm|Hm].
    - destruct (group_cons c) as (g & gs & Eg).
      assert (Hall : Forall (fun lc => lc_hash lc = c) (g :: gs)).
      { apply Forall_forall. intros lc Hlc. apply group_hash. by rewrite Eg. }
      apply Forall_cons in Hall as [Hgc Hall]. rewrite Eg. cbn [app].
      rewrite log_merge; [|done|by rewrite Hgc, env_parents_eq|by rewrite Hgc|by rewrite Hgc].
      rewrite <-Eg, Hgc. unfold got_merge_parts. cbn [s_mcommit with_parts s_repo s_mparts]. rewrite env_parents_eq.
      destruct (merge_ok k H slow HV Hk HS HA (e_orders e c) c (s_repo s) (collect_parts (group c) ∅)) as (r' & res & fs & -> & Ho & Hg & Hres & _);
        [by apply He|done|done|done|done|by apply group_parts|].
      cbn [out_step].
      match goal with |- context [finish_commit e ?x _ _ _] => set (s1 := x) end.
      destruct (finish_inv before r0 out0 done s fin c s1 r' res Hinv Hnd Hnc Hncc) as (fin' & Hinv'); try done.
      { unfold commit_right. by rewrite decide_True. }
      exists (finish_commit e s1 c r' res), fin'. done.
    - destruct (group_regular c ltac:(lia)) as (lc & Eg & Hh & Hch). rewrite Eg. cbn [app].
      rewrite log_regular; [|done|rewrite Hh, env_parents_eq; lia]. unfold new_commit. rewrite Hh, env_parents_eq.
      rewrite decide_False by done.
      destruct (regular_ok k H slow HV Hk HS c (s_repo s) lc Hc ltac:(lia) Hncc Hgood Hh Hch) as (r' & res & inh & fs & Epr & Ho & Hg & _ & Hres & _).
      assert (Hslow : e_slow e = slow) by by apply He. rewrite Hslow, Epr. cbn [out_step].
      destruct (finish_inv before r0 out0 done s fin c s r' res Hinv Hnd Hnc Hncc) as (fin' & Hinv'); try done.
      { unfold commit_right. by rewrite decide_False. }
      exists (finish_commit e s c r' res), fin'. done.
  Qed.

  Lemma log_app cs : map commit_of (git_log H cs) = concat (map group cs).
  Proof. unfold git_log, group. rewrite concat_map, map_map. done. Qed.

  Lemma loop_steps before r0 out0 cs : forall done s fin,
    linv before r0 out0 done s fin -> (forall c, c ∈ cs -> known H c /\ plain_merge H c) ->
    NoDup (done ++ cs) -> (forall d c, d ∈ done -> c ∈ cs -> c ∉ hparents H d) ->
    (forall kn, (forall x, x ∈ kn <-> x ∈ before \/ x ∈ done) -> parents_first H kn cs) ->
    exists s' fin', process_log e s (concat (map group cs)) = (s', Ret tt) /\ linv before r0 out0 (done ++ cs) s' fin'.
  Proof.
    induction cs as [|c cs IH]; intros done s fin Hinv Hcs Hnd Hnp Hpf.
    - exists s, fin. rewrite app_nil_r. split; [|done]. cbn. unfold process_log. cbn. rewrite decide_True; [done|]. apply Hinv.
    - destruct (Hcs c ltac:(by constructor)) as [Hc Hpl].
      destruct (Hpf (before ++ done)) as (Hcr & Hpar & _); [intros x; apply elem_of_app|].
      destruct (commit_step before r0 out0 done s fin c (concat (map group cs))) as (s1 & fin1 & E1 & Hinv1); try done.
      { replace (done ++ c :: cs) with ((done ++ [c]) ++ cs) in Hnd by (by rewrite <-app_assoc). by apply NoDup_app in Hnd as [? _]. }
      { intros d Hd. apply Hnp; [done|by constructor]. }
      { intros p Hp. apply elem_of_app. by apply Hpar. }
      { intros lc Hlc. destruct cs as [|c' cs']; [done|]. cbn in Hlc. destruct (group_cons c') as (g & gs & Eg). rewrite Eg in Hlc.
        cbn in Hlc. injection Hlc as <-. rewrite (group_hash c' g) by (rewrite Eg; by constructor). intros ->. apply Hcr. by constructor. }
      destruct (IH (done ++ [c]) s1 fin1 Hinv1) as (s' & fin' & E' & Hinv').
      { intros x Hx. apply Hcs. by constructor. }
      { by rewrite <-app_assoc. }
      { intros d x Hd Hx. apply elem_of_app in Hd as [Hd|Hd%elem_of_list_singleton]; [apply Hnp; [done|by constructor]|].
        subst d. intros Hxc. by apply (Hpar x Hxc). }
      { intros kn Hkn. destruct (Hpf (filter (fun x => x ∈ before \/ x ∈ done) kn)) as (_ & _ & _).
        - intros x. rewrite elem_of_list_filter. rewrite Hkn. set_solver.
        - assert (Hmono : forall cs kn1 kn2, (forall x, x ∈ kn1 -> x ∈ kn2) -> parents_first H kn1 cs -> parents_first H kn2 cs).
          { clear. induction cs as [|y cs IH]; intros kn1 kn2 Hs; cbn; [done|]. intros (? & Hp & Hpf). split_and!; [done| |].
            - intros p Hpp. destruct (Hp p Hpp). split; [by apply Hs|done].
            - eapply IH; [|done]. intros x Hx. apply elem_of_cons in Hx as [->|Hx]; [by constructor|]. constructor. by apply Hs. }
          destruct (Hpf (before ++ done)) as (_ & _ & Hpf'); [intros x; apply elem_of_app|].
          eapply Hmono; [|exact Hpf']. intros x Hx. apply Hkn. set_solver. }
      exists s', fin'. cbn [map concat]. rewrite E1, E'. split; [done|]. by rewrite <-app_assoc in Hinv'.
  Qed.

  Lemma parents_first_nodup kn cs : parents_first H kn cs -> NoDup cs.
  Proof. revert kn. induction cs as [|c cs IH]; intros kn; cbn; [constructor|]. intros (? & _ & ?). constructor; eauto. Qed.

  Lemma run_ok before (r0 : repo) cs :
    parents_first H before cs -> (forall c, c ∈ cs -> known H c /\ plain_merge H c) ->
    (forall p, p ∈ before -> good H slow r0 p) ->
    exists s fin, process_log e (pst_init r0) (map commit_of (git_log H cs)) = (s, Ret tt) /\ linv before r0 [] cs s fin.
  Proof.
    intros Hpf Hcs Hb. rewrite log_app.
    destruct (loop_steps before r0 [] cs [] (pst_init r0) []) as (s & fin & E & Hinv).
    - split; cbn.
      + intros p. by rewrite lookup_empty.
      + constructor.
      + intros p. split; [intros Hp; by apply elem_of_nil in Hp|]. intros [[d Hd] Hall]. specialize (Hall d Hd). by apply elem_of_nil in Hall.
      + intros i j p q n _ Hi. by rewrite lookup_nil in Hi.
      + done.
      + intros p Hp. rewrite decide_False by apply not_elem_of_nil. apply Hb. destruct Hp as [?|Hp]; [done|by apply elem_of_nil in Hp].
      + intros x _ _. by rewrite decide_False by apply not_elem_of_nil.
      + exists []. split; [done|constructor].
      + done.
      + done.
    - done.
    - cbn. by eapply parents_first_nodup.
    - intros d c Hd. by apply elem_of_nil in Hd.
    - intros kn Hkn. assert (Hmono : forall cs kn1 kn2, (forall x, x ∈ kn1 -> x ∈ kn2) -> parents_first H kn1 cs -> parents_first H kn2 cs).
      { clear. induction cs as [|y cs IH]; intros kn1 kn2 Hs; cbn; [done|]. intros (? & Hp & Hpf). split_and!; [done| |].
        - intros p Hpp. destruct (Hp p Hpp). split; [by apply Hs|done].
        - eapply IH; [|done]. intros x Hx. apply elem_of_cons in Hx as [->|Hx]; [by constructor|]. constructor. by apply Hs. }
      eapply Hmono; [|exact Hpf]. intros x Hx. apply Hkn. by left.
    - exists s, fin. done.
  Qed.
End loop.
