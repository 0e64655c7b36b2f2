(** * Processing a merge commit *)
From Verif.Model Require Import Base GoStrings IncBlame LogParser ParentsGraph Process.
From Verif.Spec Require Import Text UnifiedDiff Attribution GitLog CommitGraph History Processing.
From Verif.Proofs Require Import TextLemmas ParsePatch ApplyPatch IncBlameMore MergeBlame LogParse BlameOf ProcessRegular.
From Coq Require Import Lia.

(** ** Generic folds *)
Lemma ofold_app' {S A} (f : S -> A -> outcome S) s l1 l2 :
  ofold f s (l1 ++ l2) = (do s' <- ofold f s l1; ofold f s' l2).
Proof. revert s. induction l1 as [|x l1 IH]; intros s; cbn; [done|]. destruct (f s x); cbn; auto. Qed.
Lemma omapM_Ret {A C} (f : A -> outcome C) l : (forall x, x ∈ l -> exists y, f x = Ret y) ->
  exists ys, omapM f l = Ret ys /\ Forall2 (fun x y => f x = Ret y) l ys.
Proof.
  induction l as [|x l IH]; intros Hf; [exists []; split; [done|constructor]|].
  destruct (Hf x) as [y Hy]; [by constructor|]. destruct IH as (ys & E & HF); [intros; apply Hf; by constructor|].
  exists (y :: ys). cbn. rewrite Hy. cbn. rewrite E. cbn. split; [done|]. by constructor.
Qed.

Lemma omapM_pointwise {A C} (f : A -> outcome C) l ys : length ys = length l ->
  (forall i x y, l !! i = Some x -> ys !! i = Some y -> f x = Ret y) -> omapM f l = Ret ys.
Proof.
  revert ys. induction l as [|x l IH]; intros [|y ys] Hl Hf; cbn in *; try lia; [done|].
  rewrite (Hf 0 x y eq_refl eq_refl). cbn. rewrite (IH ys); [done|lia|]. intros i. apply (Hf (S i)).
Qed.
Lemma choose3 {X Y Z} (Q : X -> Y -> Z -> Prop) l l' : length l = length l' ->
  (forall i a b, l !! i = Some a -> l' !! i = Some b -> exists x, Q a b x) ->
  exists xs, length xs = length l /\ forall i a b x, l !! i = Some a -> l' !! i = Some b -> xs !! i = Some x -> Q a b x.
Proof.
  revert l'. induction l as [|a l IH]; intros [|b l'] Hl HQ; cbn in *; try lia; [by exists []|].
  destruct (IH l') as (xs & Hx & Hxs); [lia|intros i; apply (HQ (S i))|].
  destruct (HQ 0 a b eq_refl eq_refl) as [x Hx0]. exists (x :: xs). split; [cbn; lia|].
  intros [|i] a' b' x'; cbn; [by intros [= <-] [= <-] [= <-]|apply Hxs].
Qed.
Lemma zip_lookup {X Y} (l : list X) (l' : list Y) i x y : zip l l' !! i = Some (x, y) <-> l !! i = Some x /\ l' !! i = Some y.
Proof.
  revert l' i. induction l as [|a l IH]; intros [|b l'] [|i]; cbn; rewrite ?lookup_nil; try naive_solver.
Qed.
Lemma first_same_cases r f pds : (forall p, (p, None) ∈ pds -> exists b, get_file_optional r p f = Ret (Some b)) ->
  (exists p b, (p, None) ∈ pds /\ get_file_optional r p f = Ret (Some b) /\ first_same r f pds = Ret (Some b)) \/
  ((forall p o, (p, o) ∈ pds -> o <> None) /\ first_same r f pds = Ret None).
Proof.
  induction pds as [|[p [d|]] pds IH]; intros Hn; cbn [first_same].
  - right. split; [|done]. intros p o Hin. by apply elem_of_nil in Hin.
  - destruct IH as [(p' & b & ? & ? & ?)|[Ha ?]].
    + intros p' Hp'. apply Hn. by constructor.
    + left. exists p', b. split_and!; try done. by constructor.
    + right. split; [|done]. intros p' o Hin. apply elem_of_cons in Hin as [[= -> ->]|Hin]; [done|]. by eapply Ha.
  - destruct (Hn p) as [b Hb]; [by constructor|]. left. exists p, b. rewrite Hb. split_and!; try done. by constructor.
Qed.

(** ** Indices of parents *)
Lemma par_ord_lookup parents i p : NoDup parents -> parents !! i = Some p -> par_ord parents !! p = Some i.
Proof.
  intros Hnd. unfold par_ord.
  enough (G : forall l n (m : gmap bytes nat), NoDup l -> l !! i = Some p ->
    foldl (fun m (x : nat * bytes) => <[x.2 := x.1]> m) m (imap (fun k x => (n + k, x)) l) !! p = Some (n + i)).
  { intros Hi. specialize (G parents 0 ∅ Hnd Hi). exact G. }
  clear Hnd. intros l. revert i. induction l as [|x l IH]; intros i n m Hnd Hi; [done|].
  apply NoDup_cons in Hnd as [Hx Hnd]. cbn. destruct i as [|i]; cbn in Hi.
  - injection Hi as ->. clear IH.
    assert (G : forall l n (m : gmap bytes nat), p ∉ l ->
      foldl (fun m (x : nat * bytes) => <[x.2 := x.1]> m) m (imap (fun k x => (n + S k, x)) l) !! p = m !! p).
    { clear. induction l as [|y l IH]; intros n m Hp; [done|]. cbn. apply not_elem_of_cons in Hp as [? Hp].
      rewrite (imap_ext _ (fun k x => (S n + S k, x))) by (intros; cbn; f_equal; lia).
      rewrite IH by done. by rewrite lookup_insert_ne. }
    unfold compose. rewrite G by done. by rewrite lookup_insert.
  - unfold compose. rewrite (imap_ext _ (fun k x => (S n + k, x))) by (intros; cbn; f_equal; lia).
    rewrite (IH i (S n) _ Hnd Hi). f_equal. lia.
Qed.
Lemma par_ord_lt parents p : match par_ord parents !! p with Some i => i < length parents | None => True end.
Proof.
  unfold par_ord.
  enough (G : forall l n (m : gmap bytes nat) b, n + length l <= b -> (forall q i, m !! q = Some i -> i < b) ->
    forall q i, foldl (fun m (x : nat * bytes) => <[x.2 := x.1]> m) m (imap (fun k x => (n + k, x)) l) !! q = Some i -> i < b).
  { destruct (foldl _ _ _ !! p) as [i|] eqn:E; [|done]. apply (G parents 0 ∅ (length parents) ltac:(lia)) with (q := p).
    - intros q j Hj. by rewrite lookup_empty in Hj.
    - exact E. }
  induction l as [|x l IH]; intros n m b Hb Hm q i; cbn; [apply Hm|]. cbn in Hb.
  unfold compose. rewrite (imap_ext _ (fun k x => (S n + k, x))) by (intros; cbn; f_equal; lia).
  apply IH; [lia|]. intros q' j. destruct (decide (q' = x)) as [->|Hne].
  - rewrite lookup_insert. intros [= <-]. lia.
  - rewrite lookup_insert_ne by done. apply Hm.
Qed.

Definition key_of (q : fpatch) : bytes :=
  if decide (name_after (fp_kind q) = []) then deleted_prefix ++ name_before (fp_kind q) else name_after (fp_kind q).

Section merge.
  Context (k : nat) (H : history) (slow : bytes -> bytes -> outcome blame).
  Context (HV : valid_history k H) (Hk : 2 <= k) (HS : slow_blame_right H slow).
  Context (HA : acyclic (hi_parents H)).
  Context (c : bytes) (Hc : known H c) (Hm : 1 < length (hparents H c)).
  Notation ps := (hparents H c).
  Notation n := (length (hparents H c)).
  (** No path of the merge starts with the marker, and no path changes its type against a parent. *)
  Context (Hprefix : forall f, is_Some (hi_tree H c !! f) -> has_prefix deleted_prefix f = false).
  Context (Hretype : forall p f, p ∈ ps -> ~ retyped (hi_tree H p) (hi_tree H c) f).

  Lemma ps_nodup : NoDup ps.
  Proof. by destruct (proj2 HV c Hc) as (_ & _ & ? & _). Qed.
  Lemma c_not_parent : c ∉ ps.
  Proof. intros Hin. apply (HA c). by apply tc_once. Qed.

  Lemma part_patch p q : p ∈ ps -> q ∈ hi_diff H c p -> patch_between k (hi_tree H p) (hi_tree H c) q.
  Proof. intros Hp Hq. destruct (describes_parent k H HV c p Hp) as (Hf & _). rewrite Forall_forall in Hf. by apply Hf. Qed.
  Lemma writes_unique p q q' f : p ∈ ps -> q ∈ hi_diff H c p -> q' ∈ hi_diff H c p -> writes q f -> writes q' f -> q = q'.
  Proof.
    intros Hp Hq Hq' Hw Hw'. apply elem_of_list_lookup in Hq as [i Hi]. apply elem_of_list_lookup in Hq' as [j Hj].
    destruct (describes_parent k H HV c p Hp) as (_ & _ & Hu & _). pose proof (Hu i j q q' f Hi Hj Hw Hw') as ->. congruence.
  Qed.
  Lemma writes_in_tree p q f : p ∈ ps -> q ∈ hi_diff H c p -> writes q f -> is_Some (hi_tree H c !! f).
  Proof.
    intros Hp Hq Hw. destruct (writes_new k _ _ _ q f (describes_parent k H HV c p Hp) Hq Hw) as (e & _ & He & _). by eexists.
  Qed.
  Lemma writes_differs p q f : p ∈ ps -> q ∈ hi_diff H c p -> writes q f -> hi_tree H p !! f <> hi_tree H c !! f.
  Proof.
    intros Hp Hq Hw. destruct (part_patch p q Hp Hq) as (_ & _ & Hkind). destruct Hw as [Hne Hw].
    destruct (fp_kind q); cbn in *; try (by destruct Hne).
    - subst. destruct Hkind as (e & e' & -> & -> & ? & _). congruence.
    - subst. destruct Hkind as (e' & He' & [Hn|Hr] & _); [congruence|]. by destruct (Hretype p f Hp).
    - subst. destruct Hkind as (e & e' & _ & _ & -> & -> & _). done.
  Qed.
  Lemma deletes_gone p q f : p ∈ ps -> q ∈ hi_diff H c p -> deletes q f -> hi_tree H c !! f = None.
  Proof.
    intros Hp Hq Hd. destruct (part_patch p q Hp Hq) as (_ & _ & Hkind). unfold deletes in Hd.
    destruct (fp_kind q); try done. subst. destruct Hkind as (e & _ & [Hn|Hr] & _); [done|]. by destruct (Hretype p f Hp).
  Qed.

  Lemma key_writes q f : writes q f -> key_of q = f.
  Proof. intros [Hne Hw]. unfold key_of. rewrite Hw. by rewrite decide_False. Qed.
  Lemma key_deletes t t' q f : patch_between k t t' q -> deletes q f -> key_of q = deleted_prefix ++ f.
  Proof. intros Hp Hd. destruct (deletes_name _ _ _ _ _ Hp Hd) as (E1 & E2 & _). unfold key_of. by rewrite E1, E2, decide_True. Qed.

  (** ** Collecting the diffs *)
  Definition pairs := list (bytes * fpatch).
  Record cinv (E : pairs) (m : gmap bytes (list (option diff))) : Prop := CInv {
    ci_len : forall key ds, m !! key = Some ds -> length ds = n /\ exists pq, pq ∈ E /\ key_of pq.2 = key;
    ci_sound : forall key ds i d, m !! key = Some ds -> ds !! i = Some (Some d) ->
      exists p q, (p, q) ∈ E /\ ps !! i = Some p /\ key_of q = key /\ parse (change_text q) = Ret d;
    ci_complete : forall p q i, (p, q) ∈ E -> ps !! i = Some p ->
      exists ds d, m !! key_of q = Some ds /\ ds !! i = Some (Some d) }.

  Lemma collect_step E m p q : p ∈ ps -> q ∈ hi_diff H c p -> cinv E m ->
    exists m', add_diff ps p m (change_text q) = Ret m' /\ cinv (E ++ [(p, q)]) m'.
  Proof.
    intros Hp Hq [Il Is Ic]. destruct (part_patch p q Hp Hq) as (Hwf & Hsh & _).
    destruct (change_parsed q Hwf Hsh) as (d & Hd & Hd2 & Hd3 & _). unfold add_diff. rewrite Hd. cbn [obind].
    assert (Ekey : (if bool_decide (d_path d <> []) then d_path d else deleted_prefix ++ d_prev d) = key_of q).
    { unfold key_of. rewrite Hd2, Hd3. case_bool_decide; case_decide; try done. }
    rewrite Ekey. apply elem_of_list_lookup in Hp as [i Hi]. rewrite (par_ord_lookup ps i p ps_nodup Hi). cbn [default from_option id].
    set (ds := default (replicate n None) (m !! key_of q)).
    assert (Hlen : length ds = n).
    { unfold ds. destruct (m !! key_of q) as [ds0|] eqn:E0; cbn; [by apply (Il _ _ E0)|by rewrite replicate_length]. }
    assert (Hlt : i < n) by by eapply lookup_lt_Some.
    rewrite decide_True by lia. eexists. split; [done|]. split.
    - intros key ds' Hl. destruct (decide (key = key_of q)) as [->|Hne].
      + rewrite lookup_insert in Hl. injection Hl as <-. rewrite insert_length. split; [done|].
        exists (p, q). split; [set_solver|done].
      + rewrite lookup_insert_ne in Hl by done. destruct (Il _ _ Hl) as (? & pq & ? & ?). split; [done|]. exists pq. split; [set_solver|done].
    - intros key ds' j d' Hl Hj. destruct (decide (key = key_of q)) as [->|Hne].
      + rewrite lookup_insert in Hl. injection Hl as <-. destruct (decide (j = i)) as [->|Hji].
        * rewrite list_lookup_insert in Hj by lia. injection Hj as <-. exists p, q. split_and!; [set_solver|done..].
        * rewrite list_lookup_insert_ne in Hj by done. unfold ds in Hj. destruct (m !! key_of q) as [ds0|] eqn:E0; cbn in Hj.
          -- destruct (Is _ _ _ _ E0 Hj) as (p' & q' & ? & ? & ? & ?). exists p', q'. split_and!; [set_solver|done..].
          -- apply lookup_replicate in Hj as [? _]. done.
      + rewrite lookup_insert_ne in Hl by done. destruct (Is _ _ _ _ Hl Hj) as (p' & q' & ? & ? & ? & ?).
        exists p', q'. split_and!; [set_solver|done..].
    - intros p' q' j Hin Hj. apply elem_of_app in Hin as [Hin|Hin%elem_of_list_singleton].
      + destruct (Ic _ _ _ Hin Hj) as (ds' & d' & Hl & Hd'). destruct (decide (key_of q' = key_of q)) as [Ek|Ek].
        * rewrite Ek, lookup_insert. unfold ds. rewrite <-Ek, Hl. cbn.
          destruct (decide (j = i)) as [->|Hji]; [eexists _, d; split; [done|]|eexists _, d'; split; [done|]].
          -- apply list_lookup_insert. by eapply lookup_lt_Some.
          -- by rewrite list_lookup_insert_ne.
        * rewrite lookup_insert_ne by done. eauto.
      + injection Hin as -> ->. assert (j = i) as -> by (eapply NoDup_lookup; [apply ps_nodup|done|done]).
        rewrite lookup_insert. eexists _, d. split; [done|]. apply list_lookup_insert. lia.
  Qed.

  Lemma collect_all E2 : forall E1 m, (forall p q, (p, q) ∈ E2 -> p ∈ ps /\ q ∈ hi_diff H c p) -> cinv E1 m ->
    exists m', ofold (fun m (pq : bytes * fpatch) => add_diff ps pq.1 m (change_text pq.2)) m E2 = Ret m' /\ cinv (E1 ++ E2) m'.
  Proof.
    induction E2 as [|[p q] E2 IH]; intros E1 m HE Hinv.
    - exists m. rewrite app_nil_r. done.
    - destruct (HE p q) as [Hp Hq]; [by constructor|]. destruct (collect_step E1 m p q Hp Hq Hinv) as (m1 & E & Hinv1).
      cbn [ofold fst snd]. rewrite E. cbn [obind]. destruct (IH (E1 ++ [(p, q)]) m1) as (m' & E' & Hinv').
      + intros p' q' Hin. apply HE. by constructor.
      + done.
      + exists m'. rewrite <-app_assoc in Hinv'. done.
  Qed.

  (** The parts recorded for this merge: one for each parent it differs from (and possibly an empty one). *)
  Lemma collect_ok parts L : parts_ok H c parts -> L ≡ₚ map_to_list parts ->
    exists m E, collect_diffs ps L = Ret m /\ cinv E m /\ forall p q, (p, q) ∈ E <-> p ∈ ps /\ q ∈ hi_diff H c p.
  Proof.
    intros [P1 P2] HL.
    set (sel := fun pc : bytes * lcommit => match lc_changes pc.2 with [] => [] | _ => map (pair pc.1) (hi_diff H c pc.1) end).
    assert (Hsel : forall pc, pc ∈ L -> map (fun pq : bytes * fpatch => change_text pq.2) (sel pc) = lc_changes pc.2 /\
              (forall p q, (p, q) ∈ sel pc -> p = pc.1 /\ pc.1 ∈ ps /\ q ∈ hi_diff H c p)).
    { intros [par lc] Hin. rewrite HL in Hin. apply elem_of_map_to_list in Hin. unfold sel. cbn.
      destruct (P1 _ _ Hin) as [[Hp E]|E].
      - split.
        + destruct (lc_changes lc) eqn:El; [done|]. rewrite map_map. cbn. by rewrite E.
        + intros p q Hpq. destruct (lc_changes lc); [by apply elem_of_nil in Hpq|].
          apply elem_of_list_fmap in Hpq as (q' & [= -> ->] & Hq). done.
      - rewrite E. split; [done|]. intros p q Hpq. by apply elem_of_nil in Hpq. }
    assert (HE : collect_diffs ps L = ofold (fun m (pq : bytes * fpatch) => add_diff ps pq.1 m (change_text pq.2)) ∅ (concat (map sel L))).
    { unfold collect_diffs. clear HL. generalize (∅ : gmap bytes (list (option diff))). induction L as [|[par lc] L IH]; intros m; [done|].
      cbn [ofold map concat]. rewrite ofold_app'.
      destruct (Hsel (par, lc)) as [E1 E2]; [by constructor|]. cbn [fst snd] in *. rewrite <-E1.
      assert (E3 : forall l m, (forall p q, (p, q) ∈ l -> p = par) ->
         ofold (add_diff ps par) m (map (fun pq : bytes * fpatch => change_text pq.2) l) =
         ofold (fun m (pq : bytes * fpatch) => add_diff ps pq.1 m (change_text pq.2)) m l).
      { clear. induction l as [|[p q] l IH]; intros m Hl; [done|]. cbn [ofold map fst snd].
        rewrite (Hl p q) by by constructor. destruct (add_diff ps par m (change_text q)); cbn; [|done..]. apply IH.
        intros p' q' Hin. eapply Hl. by constructor. }
      rewrite E3 by (intros p q Hpq; by apply E2 in Hpq as (-> & _)). destruct (ofold _ m (sel (par, lc))); cbn; [|done..].
      apply IH. intros pc Hin. apply Hsel. by constructor. }
    assert (Hmem : forall p q, (p, q) ∈ concat (map sel L) <-> p ∈ ps /\ q ∈ hi_diff H c p).
    { intros p q. rewrite elem_of_list_In, in_concat. split.
      - intros (l & Hl & Hin). apply in_map_iff in Hl as (pc & <- & Hpc). apply elem_of_list_In in Hpc, Hin.
        destruct (Hsel pc Hpc) as [_ E2]. destruct (E2 _ _ Hin) as (-> & ? & ?). done.
      - intros [Hp Hq]. destruct (P2 p Hp) as ([lc Hlc] & Hch); [intros E; rewrite E in Hq; by apply elem_of_nil in Hq|].
        exists (sel (p, lc)). split.
        + apply in_map_iff. exists (p, lc). split; [done|]. apply elem_of_list_In. rewrite HL. by apply elem_of_map_to_list.
        + apply elem_of_list_In. unfold sel. cbn. rewrite (Hch lc Hlc). destruct (hi_diff H c p) as [|x l] eqn:E; [by apply elem_of_nil in Hq|].
          cbn [map]. change ((p, x) :: map (pair p) l) with (pair p <$> (x :: l)). apply elem_of_list_fmap. by exists q. }
    destruct (collect_all (concat (map sel L)) [] ∅) as (m & E & Hinv).
    - intros p q Hpq. by apply Hmem.
    - split; intros *; rewrite ?lookup_empty; try done. intros Hin. by apply elem_of_nil in Hin.
    - exists m, (concat (map sel L)). rewrite HE. done.
  Qed.

  (** ** One file *)
  Context (m : gmap bytes (list (option diff))) (E : pairs) (Hinv : cinv E m)
          (HE : forall p q, (p, q) ∈ E <-> p ∈ ps /\ q ∈ hi_diff H c p).

  Definition written (f : bytes) : Prop := exists p q, p ∈ ps /\ q ∈ hi_diff H c p /\ writes q f.
  Definition deleted (f : bytes) : Prop := exists p q, p ∈ ps /\ q ∈ hi_diff H c p /\ deletes q f.

  Lemma written_not_prefixed f g : written f -> f <> deleted_prefix ++ g.
  Proof.
    intros (p & q & Hp & Hq & Hw) ->. pose proof (Hprefix _ (writes_in_tree p q _ Hp Hq Hw)) as Hx.
    rewrite has_prefix_app in Hx. done.
  Qed.

  Lemma key_cases key ds : m !! key = Some ds -> (written key \/ exists f, deleted f /\ key = deleted_prefix ++ f).
  Proof.
    intros Hl. destruct (ci_len _ _ Hinv _ _ Hl) as (_ & [p q] & Hin & <-). apply HE in Hin as [Hp Hq]. cbn.
    destruct (writes_or_deletes k q _ _ (part_patch p q Hp Hq)) as [[f Hw]|[f Hd]].
    - left. rewrite (key_writes q f Hw). exists p, q. done.
    - right. exists f. split; [by exists p, q|]. eapply key_deletes; [by apply part_patch|done].
  Qed.
  Lemma written_key f : written f -> is_Some (m !! f).
  Proof.
    intros (p & q & Hp & Hq & Hw). pose proof Hp as Hp'. apply elem_of_list_lookup in Hp' as [i Hi].
    destruct (ci_complete _ _ Hinv p q i) as (ds & d & Hl & _); [by apply HE|done|]. rewrite (key_writes q f Hw) in Hl. by eexists.
  Qed.
  Lemma deleted_key f : deleted f -> is_Some (m !! (deleted_prefix ++ f)).
  Proof.
    intros (p & q & Hp & Hq & Hd). pose proof Hp as Hp'. apply elem_of_list_lookup in Hp' as [i Hi].
    destruct (ci_complete _ _ Hinv p q i) as (ds & d & Hl & _); [by apply HE|done|].
    rewrite (key_deletes _ _ q f (part_patch p q Hp Hq) Hd) in Hl. by eexists.
  Qed.

  (** The diff recorded for a written path against each parent. *)
  Lemma row_some f ds i p d : written f -> m !! f = Some ds -> ps !! i = Some p -> ds !! i = Some (Some d) ->
    exists q, q ∈ hi_diff H c p /\ writes q f /\ parse (change_text q) = Ret d.
  Proof.
    intros Hwr Hl Hi Hd. destruct (ci_sound _ _ Hinv _ _ _ _ Hl Hd) as (p' & q & Hin & Hi' & Hkq & Hpq).
    rewrite Hi in Hi'. injection Hi' as <-. apply HE in Hin as [Hp Hq]. exists q. split_and!; try done.
    destruct (writes_or_deletes k q _ _ (part_patch p q Hp Hq)) as [[g Hw]|[g Hdel]].
    - rewrite (key_writes q g Hw) in Hkq. by subst.
    - rewrite (key_deletes _ _ q g (part_patch p q Hp Hq) Hdel) in Hkq. by destruct (written_not_prefixed f g Hwr).
  Qed.
  Lemma row_none f ds i p : written f -> m !! f = Some ds -> ps !! i = Some p -> ds !! i = Some None ->
    hi_tree H p !! f = hi_tree H c !! f.
  Proof.
    intros (p0 & q0 & Hp0 & Hq0 & Hw0) Hl Hi Hd. assert (Hp : p ∈ ps) by by eapply elem_of_list_lookup_2.
    apply (unwritten_same k _ _ _ f (describes_parent k H HV c p Hp)).
    - by apply (writes_in_tree p0 q0).
    - intros q Hq Hw. destruct (ci_complete _ _ Hinv p q i) as (ds' & d & Hl' & Hd'); [by apply HE|done|].
      rewrite (key_writes q f Hw) in Hl'. rewrite Hl in Hl'. injection Hl' as <-. congruence.
  Qed.

  Section one_repo.
  Context (r : repo) (Hgood : forall p, p ∈ ps -> good H slow r p).

  Lemma must_found p f : p ∈ ps -> is_Some (hi_tree H p !! f) ->
    exists b, get_file_must r p f = Ret b /\ get_file_optional r p f = Ret (Some b) /\ blame_of H slow p f b.
  Proof.
    intros Hp Hf. destruct (Hgood p Hp) as (fs & Hfs & Hg). destruct (Hg f Hf) as (b & Hb & ?). exists b.
    unfold get_file_must, get_file_optional, get_commit_must. rewrite Hfs. cbn [obind]. by rewrite Hb.
  Qed.

  Lemma merge_file_deleted f ds : deleted f -> m !! (deleted_prefix ++ f) = Some ds ->
    merge_file r c ps (deleted_prefix ++ f) ds = Ret (None, Some (f, Blame c [] false)).
  Proof.
    intros Hdel Hl. unfold merge_file.
    assert (forallb (fun o : option diff => match o with Some d => bool_decide (d_path d = []) | None => true end) ds = true) as ->.
    { apply forallb_forall. intros [d|] Hin; [|done]. apply elem_of_list_In, elem_of_list_lookup in Hin as [i Hi].
      destruct (ci_sound _ _ Hinv _ _ _ _ Hl Hi) as (p & q & Hin & Hip & Hkq & Hpq). apply HE in Hin as [Hp Hq].
      destruct (part_patch p q Hp Hq) as (Hwf & Hsh & _). destruct (change_parsed q Hwf Hsh) as (d' & Hd' & _ & Hd3 & _).
      rewrite Hpq in Hd'. injection Hd' as <-. rewrite Hd3. apply bool_decide_eq_true.
      destruct (writes_or_deletes k q _ _ (part_patch p q Hp Hq)) as [[g Hw]|[g Hd]].
      - rewrite (key_writes q g Hw) in Hkq. subst g. exfalso. eapply (written_not_prefixed _ f); [by exists p, q|done].
      - by destruct (deletes_name _ _ _ _ _ (part_patch p q Hp Hq) Hd) as (-> & _). }
    rewrite decide_True by (rewrite app_length; lia). by rewrite drop_app.
  Qed.

  Lemma parent_at i p : ps !! i = Some p -> p ∈ ps.
  Proof. intros. by eapply elem_of_list_lookup_2. Qed.

  (** What one parent contributes to a file that every parent's diff writes. *)
  Definition side_facts (f : bytes) (txt : list bytes) (p : bytes) (o : option diff) (mp : mparent) : Prop :=
    exists d, o = Some d /\ mp_patch mp ∈ hi_diff H c p /\ writes (mp_patch mp) f /\ text_body (mp_patch mp) (mp_hunks mp) /\
      new_text (mp_script mp) = txt /\ b_binary (mp_blame mp) = false /\
      (name_before (fp_kind (mp_patch mp)) = [] -> mp_blame mp = blame_zero) /\
      (name_before (fp_kind (mp_patch mp)) <> [] -> blame_of H slow p (name_before (fp_kind (mp_patch mp))) (mp_blame mp)) /\
      (if bool_decide (d_prev d = []) then Ret blame_zero else get_file_must r p (d_prev d)) = Ret (mp_blame mp) /\
      merge_side_ok c mp d.

  Lemma row_parsed f ds i p d : written f -> m !! f = Some ds -> ps !! i = Some p -> ds !! i = Some (Some d) ->
    exists q, q ∈ hi_diff H c p /\ writes q f /\ parse (change_text q) = Ret d /\
      d_path d = f /\ d_prev d = name_before (fp_kind q) /\ d_binary d = is_binary_body (fp_body q) /\
      (d_prev d <> [] -> exists b, get_file_must r p (d_prev d) = Ret b /\ blame_of H slow p (name_before (fp_kind q)) b).
  Proof.
    intros Hwr Hl Hi Hd. destruct (row_some f ds i p d Hwr Hl Hi Hd) as (q & Hq & Hw & Hpq).
    pose proof (parent_at _ _ Hi) as Hp. destruct (part_patch p q Hp Hq) as (Hwf & Hsh & _).
    destruct (change_parsed q Hwf Hsh) as (d' & Hd' & Hd2 & Hd3 & Hd4 & _). rewrite Hpq in Hd'. injection Hd' as <-.
    exists q. split_and!; try done.
    - rewrite Hd3. by destruct Hw.
    - intros Hne. rewrite Hd2 in *. destruct (writes_new k _ _ _ q f (describes_parent k H HV c p Hp) Hq Hw) as (e & o & _ & _ & _ & Ho).
      destruct (Ho Hne) as (e0 & He0 & _). destruct (must_found p (name_before (fp_kind q)) Hp) as (b & Hb & _ & ?); [by eexists|].
      by exists b.
  Qed.

  Lemma side_exists f e ds i p d : written f -> m !! f = Some ds -> hi_tree H c !! f = Some e ->
    ps !! i = Some p -> ds !! i = Some (Some d) -> d_binary d = false ->
    (d_prev d <> [] -> forall b, get_file_must r p (d_prev d) = Ret b -> b_binary b = false) ->
    exists mp, side_facts f (content_lines (en_content e)) p (Some d) mp.
  Proof.
    intros Hwr Hl He Hi Hd Hdb Hbb. destruct (row_parsed f ds i p d Hwr Hl Hi Hd) as (q & Hq & Hw & Hpq & Hd3 & Hd2 & Hd4 & Hold).
    pose proof (parent_at _ _ Hi) as Hp. destruct (part_patch p q Hp Hq) as (Hwf & Hsh & _).
    destruct (writes_new k _ _ _ q f (describes_parent k H HV c p Hp) Hq Hw) as (e' & o & He' & Hbo & Ho1 & Ho2).
    rewrite He in He'. injection He' as <-.
    pose proof (writes_not_delete _ _ Hw) as Hnd.
    set (txt := content_lines (en_content e)).
    assert (exists hs tail b, text_body q hs /\ new_text (script hs tail) = txt /\ b_binary b = false /\
      (name_before (fp_kind q) = [] -> b = blame_zero) /\
      (name_before (fp_kind q) <> [] -> blame_of H slow p (name_before (fp_kind q)) b) /\
      (if bool_decide (d_prev d = []) then Ret blame_zero else get_file_must r p (d_prev d)) = Ret b /\
      Forall2 same_up_to_cr (texts (b_lines b)) (old_text (script hs tail)) /\
      Forall (fun l => l_commit l <> c) (b_lines b)) as (hs & tail & b & Htb & Hnew & Hbin & Hz & Hbl & Hget & Htx & Hlines).
    { destruct (decide (name_before (fp_kind q) = [])) as [En|En].
      - rewrite Hd2, En. rewrite (Ho1 En) in Hbo. case_bool_decide; [|done].
        destruct (fp_body q) as [| |hs] eqn:Eb; [|rewrite Hdb in Hd4; done|].
        + exists [], [], blame_zero. cbn in Hbo. unfold txt. rewrite Hbo. split_and!; try done; [right; done|constructor..].
        + destruct Hbo as (_ & tail & Hold' & Hnew). exists hs, tail, blame_zero. injection Hold' as Hold'.
          unfold txt. destruct (en_content e) as [ls|]; [|done]. injection Hnew as ->.
          split_and!; try done; [by left|rewrite <-Hold'; constructor|constructor].
      - destruct (Ho2 En) as (e0 & He0 & ->). destruct Hold as (b & Hb & Hbl); [by rewrite Hd2|].
        assert (Hbb' : b_binary b = false) by (apply Hbb; [by rewrite Hd2|done]).
        pose proof (parent_known k H HV c p Hp) as Hkp.
        pose proof (blame_text k H slow HV HS p _ _ Hbl Hkp e0 He0 Hbb') as Htx.
        assert (Hlines : Forall (fun l => l_commit l <> c) (b_lines b)).
        { apply Forall_forall. intros l Hin Hlc. pose proof (blame_lines k H slow HV HS p _ _ Hbl Hkp ltac:(by eexists) l Hin) as Hr.
          rewrite Hlc in Hr. apply (HA c). eapply tc_rtc_r; [by apply tc_once|done]. }
        destruct (fp_body q) as [| |hs] eqn:Eb; [|rewrite Hdb in Hd4; done|].
        + exists [], txt, b. cbn in Hbo. rewrite script_nil, new_text_keep, old_text_keep.
          split_and!; try done; [by right|case_bool_decide; [congruence|done]|]. unfold txt. by rewrite <-Hbo.
        + destruct Hbo as (_ & tail & Hold' & Hnew). exists hs, tail, b.
          unfold txt. destruct (en_content e) as [ls|]; [|done]. injection Hnew as ->.
          destruct (en_content e0) as [ls0|]; [|done]. injection Hold' as ->. cbn [content_lines] in Htx.
          split_and!; try done; [by left|case_bool_decide; [congruence|done]]. }
    exists (MParent b q hs tail), d. unfold mp_script. cbn [mp_patch mp_hunks mp_tail mp_blame]. split_and!; try done.
    unfold merge_side_ok, mp_script. cbn [mp_patch mp_hunks mp_tail mp_blame].
    assert (Hlen : length (b_lines b) = length (old_text (script hs tail))).
    { apply Forall2_length in Htx. unfold texts in Htx. by rewrite map_length in Htx. }
    destruct (change_apply k q hs tail b c d Hwf Hsh Hpq Hk Htb (body_context k _ _ _ _ Hbo) Hnd Hbin Hlen) as (ls & Hap & Ha).
    split_and!; try done. eexists. split; [done|]. done.
  Qed.

  Lemma merge_file_written f ds : written f -> m !! f = Some ds -> exists b, blame_of H slow c f b /\
    ((merge_file r c ps f ds = Ret (Some b, Some (f, b)) /\ ((forall p, p ∈ ps -> hi_tree H p !! f <> hi_tree H c !! f) \/ b_binary b = true))
     \/ (merge_file r c ps f ds = Ret (Some b, None) /\ exists p, p ∈ ps /\ hi_tree H p !! f = hi_tree H c !! f /\ get_file_optional r p f = Ret (Some b))).
  Proof.
    intros Hwr Hl. destruct (ci_len _ _ Hinv _ _ Hl) as [Hlen _].
    assert (exists e, hi_tree H c !! f = Some e) as [e He].
    { destruct Hwr as (p & q & Hp & Hq & Hw). by apply (writes_in_tree p q f). }
    assert (Hcover : forall i o, ds !! i = Some o -> exists p, ps !! i = Some p).
    { intros i o Ho. apply lookup_lt_is_Some_2. rewrite <-Hlen. by eapply lookup_lt_Some. }
    unfold merge_file.
    assert (forallb (fun o : option diff => match o with Some d => bool_decide (d_path d = []) | None => true end) ds = false) as ->.
    { destruct Hwr as (p & q & Hp & Hq & Hw). pose proof Hp as Hp'. apply elem_of_list_lookup in Hp' as [i Hi].
      destruct (ci_complete _ _ Hinv p q i) as (ds' & d & Hl' & Hd); [by apply HE|done|].
      rewrite (key_writes q f Hw) in Hl'. rewrite Hl in Hl'. injection Hl' as <-.
      apply not_true_iff_false. rewrite forallb_forall. intros Hall.
      specialize (Hall (Some d) ltac:(apply elem_of_list_In; by eapply elem_of_list_lookup_2)). cbn in Hall.
      apply bool_decide_eq_true in Hall.
      destruct (row_parsed f ds i p d ltac:(by exists p, q) Hl Hi Hd) as (_ & _ & _ & _ & Hpath & _).
      destruct Hw as [Hne _]. congruence. }
    destruct (omapM_Ret (fun pd : bytes * option diff =>
           match pd.2 with
           | None => Ret false
           | Some d => if bool_decide (d_prev d = []) then Ret false
                       else do pb <- get_file_must r pd.1 (d_prev d); Ret (b_binary pb)
           end) (zip ps ds)) as (bins & Ebins & Hbins).
    { intros [p [d|]] Hin; cbn [fst snd]; [|eauto]. apply elem_of_list_lookup in Hin as [i Hi]. apply zip_lookup in Hi as [Hi Hd].
      destruct (row_parsed f ds i p d Hwr Hl Hi Hd) as (q & _ & _ & _ & _ & _ & _ & Hold).
      case_bool_decide as Ep; [eauto|]. destruct (Hold Ep) as (b & -> & _). cbn. eauto. }
    unfold bin_parents. rewrite Ebins. cbn [obind].
    destruct (existsb (fun o : option diff => match o with Some d => d_binary d | None => false end) ds) eqn:Ex1; cbn [orb].
    { exists (blame_binary_file c). apply existsb_exists in Ex1 as ([d|] & Hin & Hb); [|done].
      apply elem_of_list_In, elem_of_list_lookup in Hin as [i Hi]. destruct (Hcover i _ Hi) as [p Hp].
      destruct (row_parsed f ds i p d Hwr Hl Hp Hi) as (q & Hq & Hw & _ & _ & _ & Hd4 & _).
      split; [|left; split; [done|by right]]. apply (bo_merge_binary H slow c f p q); try done; [by eapply parent_at|].
      rewrite Hb in Hd4. by destruct (fp_body q). }
    destruct (existsb id bins) eqn:Ex2.
    { exists (blame_binary_file c). apply existsb_exists in Ex2 as (bb & Hin & Hb). unfold id in Hb. subst bb.
      apply elem_of_list_In, elem_of_list_lookup in Hin as [i Hi].
      destruct (Forall2_lookup_r _ _ _ _ _ Hbins Hi) as ([p [d|]] & Hz & Hv); cbn [fst snd] in Hv; [|done].
      apply zip_lookup in Hz as [Hp Hd].
      destruct (row_parsed f ds i p d Hwr Hl Hp Hd) as (q & Hq & Hw & _ & _ & Hd2 & _ & Hold).
      case_bool_decide as Ep; [done|]. destruct (Hold Ep) as (b & Hg & Hbl). rewrite Hg in Hv. cbn in Hv. injection Hv as Hv.
      split; [|left; split; [done|by right]]. apply (bo_merge_opaque H slow c f p q b); try done; [by eapply parent_at|]. by rewrite <-Hd2. }
    assert (Hnone : forall p, (p, None) ∈ zip ps ds -> p ∈ ps /\ hi_tree H p !! f = hi_tree H c !! f).
    { intros p Hin. apply elem_of_list_lookup in Hin as [i Hi]. apply zip_lookup in Hi as [Hi Hd].
      split; [by eapply parent_at|]. by eapply row_none. }
    destruct (first_same_cases r f (zip ps ds)) as [(p & b & Hin & Hg & ->)|[Hall ->]].
    { intros p Hin. destruct (Hnone p Hin) as [Hp Ht]. destruct (must_found p f Hp) as (b & _ & Hb & _); [by rewrite Ht, He|eauto]. }
    { cbn [obind]. exists b. destruct (Hnone p Hin) as [Hp Ht].
      destruct (must_found p f Hp) as (b' & _ & Hb & Hbl); [by rewrite Ht, He|]. rewrite Hg in Hb. injection Hb as <-.
      split; [|right; split; [done|by exists p]]. apply (bo_merge_same H slow c p f b); try done. }
    cbn [obind]. set (txt := content_lines (en_content e)).
    destruct (choose3 (side_facts f txt) ps ds) as (mps & Hml & Hmps); [done| |].
    { intros i p o Hp Hd. destruct o as [d|].
      - destruct (side_exists f e ds i p d Hwr Hl He Hp Hd) as (mp & Hmp); [| |by exists mp].
        + apply not_true_iff_false. intros Hb. apply not_true_iff_false in Ex1. apply Ex1, existsb_exists. exists (Some d).
          split; [apply elem_of_list_In; by eapply elem_of_list_lookup_2|done].
        + intros Hne b Hb. apply not_true_iff_false. intros Hbb. apply not_true_iff_false in Ex2. apply Ex2, existsb_exists.
          exists true. split; [|done]. assert (Hz : zip ps ds !! i = Some (p, Some d)) by by apply zip_lookup.
          destruct (Forall2_lookup_l _ _ _ _ _ Hbins Hz) as (bb & Hi & Hv). cbn [fst snd] in Hv.
          case_bool_decide; [done|]. rewrite Hb in Hv. cbn in Hv. rewrite Hbb in Hv. injection Hv as <-.
          apply elem_of_list_In. by eapply elem_of_list_lookup_2.
      - exfalso. eapply Hall; [|done]. apply elem_of_list_lookup. exists i. by apply zip_lookup. }
    assert (Hds : forall i p, ps !! i = Some p -> exists d mp, ds !! i = Some (Some d) /\ mps !! i = Some mp /\ side_facts f txt p (Some d) mp).
    { intros i p Hp. pose proof (lookup_lt_Some _ _ _ Hp) as Hlt.
      destruct (lookup_lt_is_Some_2 ds i ltac:(lia)) as [o Ho]. destruct (lookup_lt_is_Some_2 mps i ltac:(lia)) as [mp Hmp].
      pose proof (Hmps i p o mp Hp Ho Hmp) as Hsf. pose proof Hsf as (d & -> & _). eauto. }
    unfold merge_parents. rewrite (omapM_pointwise _ _ (map mp_blame mps)).
    2:{ rewrite map_length, zip_with_length. lia. }
    2:{ intros i [p o] y Hz Hy. apply zip_lookup in Hz as [Hp Ho]. change (map mp_blame mps) with (mp_blame <$> mps) in Hy.
        rewrite list_lookup_fmap in Hy. destruct (Hds i p Hp) as (d & mp & Ho' & Hmp & (d' & [= <-] & Hsf)).
        rewrite Ho in Ho'. injection Ho' as ->. rewrite Hmp in Hy. injection Hy as <-. cbn [fst snd]. by destruct Hsf as (_ & _ & _ & _ & _ & _ & _ & ? & _). }
    cbn [obind].
    destruct (merge_core c mps (map (default diff_zero) ds) txt) as (b & Hap & Hb1 & Hb2 & Hb3 & Hb4).
    - intros ->. cbn in Hml. lia.
    - apply Forall2_same_length_lookup. split; [rewrite map_length; lia|]. intros i mp d Hmp Hd.
      change (map (default diff_zero) ds) with (default diff_zero <$> ds) in Hd. rewrite list_lookup_fmap in Hd.
      destruct (ds !! i) as [o|] eqn:Ho; [|done]. destruct (Hcover i o Ho) as [p Hp].
      destruct (Hmps i p o mp Hp Ho Hmp) as (d' & -> & Hsf). cbn in Hd. injection Hd as <-. by destruct Hsf as (_ & _ & _ & _ & _ & _ & _ & _ & ?).
    - intros mp Hmp. apply elem_of_list_lookup in Hmp as [i Hi].
      destruct (lookup_lt_is_Some_2 ps i) as [p Hp]; [rewrite <-Hml; by eapply lookup_lt_Some|].
      destruct (Hds i p Hp) as (d & mp' & _ & Hmp & (d' & _ & Hsf)). rewrite Hi in Hmp. injection Hmp as <-. by destruct Hsf as (_ & _ & _ & ? & _).
    - rewrite Hap. cbn [obind]. exists b. split.
      + destruct b as [bc bl bb]. cbn in Hb1, Hb2. subst bc bb. cbn [b_lines] in *.
        apply (bo_merge H slow c f e txt mps bl); try done.
        * intros i p mp Hp Hmp. destruct (Hds i p Hp) as (d & mp' & _ & Hmp' & (d' & _ & Hsf)). rewrite Hmp in Hmp'. injection Hmp' as <-.
          destruct Hsf as (? & ? & ? & ? & ? & _). done.
        * intros i p mp Hp Hmp. destruct (Hds i p Hp) as (d & mp' & _ & Hmp' & (d' & _ & Hsf)). rewrite Hmp in Hmp'. injection Hmp' as <-.
          destruct Hsf as (_ & _ & _ & _ & _ & ? & _). done.
        * intros i p mp Hp Hmp. destruct (Hds i p Hp) as (d & mp' & _ & Hmp' & (d' & _ & Hsf)). rewrite Hmp in Hmp'. injection Hmp' as <-.
          destruct Hsf as (_ & _ & _ & _ & _ & _ & ? & _). done.
      + left. split; [done|]. left. intros p Hp. apply elem_of_list_lookup in Hp as [i Hi].
        destruct (Hds i p Hi) as (d & mp & _ & _ & (d' & _ & Hq & Hw & _)). eapply writes_differs; [by eapply parent_at|done|done].
  Qed.
  End one_repo.

  (** ** All changed files, in any order *)
  Record minv (r0 : repo) (K : list bytes) (st : repo * files) : Prop := MInv {
    mi_other : forall x, x <> c -> st.1 !! x = r0 !! x;
    mi_mine : exists fs, st.1 !! c = Some fs /\
      (forall f, f ∈ K -> written f -> exists b, fs !! f = Some b /\ blame_of H slow c f b /\
         ((st.2 !! f = Some b /\ ((forall p, p ∈ ps -> hi_tree H p !! f <> hi_tree H c !! f) \/ b_binary b = true)) \/
          (st.2 !! f = None /\ exists p, p ∈ ps /\ hi_tree H p !! f = hi_tree H c !! f /\ get_file_optional r0 p f = Ret (Some b)))) /\
      (forall f, is_Some (fs !! f) -> f ∈ K /\ written f);
    mi_deleted : forall f, deleted f -> deleted_prefix ++ f ∈ K -> st.2 !! f = Some (Blame c [] false);
    mi_dom : forall f, is_Some (st.2 !! f) -> written f /\ f ∈ K \/ deleted f /\ deleted_prefix ++ f ∈ K }.

  Lemma written_deleted f : written f -> deleted f -> False.
  Proof.
    intros (p & q & Hp & Hq & Hw) (p' & q' & Hp' & Hq' & Hd).
    destruct (writes_in_tree p q f Hp Hq Hw) as [e He]. rewrite (deletes_gone p' q' f Hp' Hq' Hd) in He. done.
  Qed.

  Lemma phase1 (r0 : repo) : (forall p, p ∈ ps -> good H slow r0 p) ->
    forall K2 K1 st, NoDup (K1 ++ K2) -> (forall key, key ∈ K2 -> is_Some (m !! key)) -> minv r0 K1 st ->
    exists st', ofold (merge_step_file c ps m) st K2 = Ret st' /\ minv r0 (K1 ++ K2) st'.
  Proof.
    intros Hg K2. induction K2 as [|key K2 IH]; intros K1 st Hnd Hin Hinv1.
    - exists st. by rewrite app_nil_r.
    - destruct (Hin key) as [ds Hds]; [by constructor|].
      assert (Hfresh : key ∉ K1) by (apply NoDup_app in Hnd as (_ & Hn & _); intros ?; eapply Hn; [done|by constructor]).
      destruct st as [rr res]. destruct Hinv1 as [Io (fs & If & Iw & Ir) Id Ix]. cbn [fst snd] in *.
      assert (Hg' : forall p, p ∈ ps -> good H slow rr p).
      { intros p Hp. destruct (Hg p Hp) as (fsp & E1 & G). exists fsp. split; [|done]. rewrite Io; [done|]. intros ->. by apply c_not_parent. }
      cbn [ofold]. unfold merge_step_file at 1. rewrite Hds. cbn [default from_option id].
      assert (Hstep : forall st1, minv r0 (K1 ++ [key]) st1 ->
        exists st', ofold (merge_step_file c ps m) st1 K2 = Ret st' /\ minv r0 (K1 ++ key :: K2) st').
      { intros st1 Hst1. destruct (IH (K1 ++ [key]) st1) as (st' & ? & Hst'); [by rewrite <-app_assoc|intros; apply Hin; by constructor|done|].
        exists st'. by rewrite <-app_assoc in Hst'. }
      destruct (key_cases key ds Hds) as [Hwr|(f & Hdel & ->)].
      + destruct (merge_file_written rr Hg' key ds Hwr Hds) as (b & Hb & [[-> Hrep]|[-> Hrep]]); cbn [obind fst snd]; apply Hstep.
        * split; cbn [fst snd].
          -- intros x Hx. rewrite set_file_other by done. by apply Io.
          -- exists (<[key := b]> fs). split; [by apply set_file_same|]. split.
             ++ intros g Hg1 Hwg. destruct (decide (g = key)) as [->|Hne].
                { exists b. rewrite !lookup_insert. split_and!; try done. by left. }
                rewrite !lookup_insert_ne by done. apply Iw; [set_solver|done].
             ++ intros g Hg1. destruct (decide (g = key)) as [->|Hne]; [split; [set_solver|done]|].
                rewrite lookup_insert_ne in Hg1 by done. destruct (Ir g Hg1). split; [set_solver|done].
          -- intros g Hdg Hk1. assert (g <> key) by (intros ->; by eapply written_deleted). rewrite lookup_insert_ne by done.
             apply Id; [done|]. apply elem_of_app in Hk1 as [?|Hk1%elem_of_list_singleton]; [done|].
             exfalso. by eapply (written_not_prefixed key g).
          -- intros g Hg1. destruct (decide (g = key)) as [->|Hne]; [left; split; [done|set_solver]|].
             rewrite lookup_insert_ne in Hg1 by done. destruct (Ix g Hg1) as [[? ?]|[? ?]]; [left|right]; (split; [done|set_solver]).
        * split; cbn [fst snd].
          -- intros x Hx. rewrite set_file_other by done. by apply Io.
          -- exists (<[key := b]> fs). split; [by apply set_file_same|]. split.
             ++ intros g Hg1 Hwg. destruct (decide (g = key)) as [->|Hne].
                { exists b. rewrite !lookup_insert. split_and!; try done. right. split.
                  2:{ destruct Hrep as (p & Hp & Ht & Hgf). exists p. split_and!; try done. unfold get_file_optional, get_commit_must in *.
                      rewrite <-Io; [done|]. intros ->. by apply c_not_parent. }
                  destruct (res !! key) eqn:Er; [|done]. destruct (Ix key) as [[_ ?]|[? _]]; [by eexists|done|].
                  exfalso. by eapply written_deleted. }
                rewrite !lookup_insert_ne by done. apply Iw; [set_solver|done].
             ++ intros g Hg1. destruct (decide (g = key)) as [->|Hne]; [split; [set_solver|done]|].
                rewrite lookup_insert_ne in Hg1 by done. destruct (Ir g Hg1). split; [set_solver|done].
          -- intros g Hdg Hk1. apply Id; [done|]. apply elem_of_app in Hk1 as [?|Hk1%elem_of_list_singleton]; [done|].
             exfalso. by eapply (written_not_prefixed key g).
          -- intros g Hg1. destruct (Ix g Hg1) as [[? ?]|[? ?]]; [left|right]; (split; [done|set_solver]).
      + rewrite (merge_file_deleted rr f ds Hdel Hds). cbn [obind fst snd]. apply Hstep. split; cbn [fst snd].
        * done.
        * exists fs. split; [done|]. split.
          -- intros g Hg1 Hwg. assert (g <> f) by (intros ->; by eapply written_deleted). rewrite lookup_insert_ne by done.
             apply Iw; [|done]. apply elem_of_app in Hg1 as [?|Hg1%elem_of_list_singleton]; [done|].
             exfalso. by eapply (written_not_prefixed g f).
          -- intros g Hg1. destruct (Ir g Hg1). split; [set_solver|done].
        * intros g Hdg Hk1. destruct (decide (g = f)) as [->|Hne]; [by rewrite lookup_insert|]. rewrite lookup_insert_ne by done.
          apply Id; [done|]. apply elem_of_app in Hk1 as [?|Hk1%elem_of_list_singleton]; [done|]. by apply app_inv_head in Hk1.
        * intros g Hg1. destruct (decide (g = f)) as [->|Hne]; [right; split; [done|set_solver]|].
          rewrite lookup_insert_ne in Hg1 by done. destruct (Ix g Hg1) as [[? ?]|[? ?]]; [left|right]; (split; [done|set_solver]).
  Qed.

  (** ** The remaining files of the parents *)
  Definition candidates (r0 : repo) (f : bytes) : list blame := omap (fun p => r0 !! p ≫= fun fs : files => fs !! f) ps.

  Lemma rest_step (rr : repo) f fs : (forall p, p ∈ ps -> is_Some (rr !! p)) -> rr !! c = Some fs ->
    (fs !! f = None -> candidates rr f <> []) ->
    exists fs', merge_step_rest c ps rr f = Ret (<[c := fs']> rr) /\
      fs' !! f = match fs !! f with Some b => Some b | None => last (candidates rr f) end /\ forall g, g <> f -> fs' !! g = fs !! g.
  Proof.
    intros Hps Hc' Hcand. unfold merge_step_rest, get_file_optional at 1, get_commit_must at 1. rewrite Hc'. cbn [obind].
    destruct (fs !! f) as [b|] eqn:Ef.
    - exists fs. rewrite insert_id by done. done.
    - destruct (omapM_Ret (fun p => get_file_optional rr p f) ps) as (os & Eos & Hos).
      { intros p Hp. destruct (Hps p Hp) as [fsp E1]. unfold get_file_optional, get_commit_must. rewrite E1. cbn. eauto. }
      rewrite Eos. cbn [obind].
      assert (omap id os = candidates rr f) as ->.
      { unfold candidates. clear -Hos. induction Hos as [|p o l os Hp _ IH]; [done|]. cbn. rewrite IH.
        unfold get_file_optional, get_commit_must in Hp. destruct (rr !! p) as [fsp|]; [|done]. cbn in Hp. injection Hp as <-. done. }
      destruct (last (candidates rr f)) as [b|] eqn:El.
      + exists (<[f := b]> fs). unfold set_file. rewrite Hc'. cbn [default from_option id]. split_and!; [done|by rewrite lookup_insert|].
        intros g Hg. by rewrite lookup_insert_ne.
      + apply last_None in El. by destruct (Hcand eq_refl).
  Qed.

  Lemma phase2 (r1 : repo) fs1 : (forall p, p ∈ ps -> is_Some (r1 !! p)) -> r1 !! c = Some fs1 ->
    forall F2 F1 (rr : repo), NoDup (F1 ++ F2) -> (forall f, f ∈ F2 -> candidates r1 f <> []) ->
    (forall x, x <> c -> rr !! x = r1 !! x) ->
    (exists fs, rr !! c = Some fs /\
       (forall f, f ∈ F1 -> fs !! f = match fs1 !! f with Some b => Some b | None => last (candidates r1 f) end) /\
       (forall f, f ∉ F1 -> fs !! f = fs1 !! f)) ->
    exists r', ofold (merge_step_rest c ps) rr F2 = Ret r' /\
      (forall x, x <> c -> r' !! x = r1 !! x) /\
      (exists fs, r' !! c = Some fs /\
       (forall f, f ∈ F1 ++ F2 -> fs !! f = match fs1 !! f with Some b => Some b | None => last (candidates r1 f) end) /\
       (forall f, f ∉ F1 ++ F2 -> fs !! f = fs1 !! f)).
  Proof.
    intros Hps Hc1 F2. induction F2 as [|f F2 IH]; intros F1 rr Hnd Hcand Hoth (fs & Hfs & H1 & H2).
    - exists rr. rewrite app_nil_r. split; [done|]. split; [done|]. by exists fs.
    - assert (Hcand_eq : forall g, candidates rr g = candidates r1 g).
      { intros g. unfold candidates. apply list_omap_ext. apply Forall2_same_length_lookup_2; [done|]. intros i p p' Hi Hi'.
        rewrite Hi in Hi'. injection Hi' as <-. rewrite Hoth; [done|]. intros ->. apply c_not_parent. by eapply elem_of_list_lookup_2. }
      assert (f ∉ F1) by (apply NoDup_app in Hnd as (_ & Hn & _); intros ?; eapply Hn; [done|by constructor]).
      destruct (rest_step rr f fs) as (fs' & Est & E1 & E2).
      { intros p Hp. rewrite Hoth; [by apply Hps|]. intros ->. by apply c_not_parent. }
      { done. }
      { intros _. rewrite Hcand_eq. apply Hcand. by constructor. }
      cbn [ofold]. rewrite Est. cbn [obind].
      destruct (IH (F1 ++ [f]) (<[c := fs']> rr)) as (r' & Er & Ho & Hf).
      + by rewrite <-app_assoc.
      + intros g Hg. apply Hcand. by constructor.
      + intros x Hx. rewrite lookup_insert_ne by done. by apply Hoth.
      + exists fs'. rewrite lookup_insert. split; [done|]. split.
        * intros g Hg. apply elem_of_app in Hg as [Hg|Hg%elem_of_list_singleton].
          -- rewrite E2 by (intros ->; done). by apply H1.
          -- subst g. rewrite E1, H2, Hcand_eq by done. done.
        * intros g Hg. apply not_elem_of_app in Hg as [Hg1 Hg2]. rewrite E2 by set_solver. by apply H2.
      + exists r'. rewrite <-app_assoc in Hf. done.
  Qed.
End merge.

(** ** A merge commit *)
Section merge_commit.
  Context (k : nat) (H : history) (slow : bytes -> bytes -> outcome blame).
  Context (HV : valid_history k H) (Hk : 2 <= k) (HS : slow_blame_right H slow).
  Context (HA : acyclic (hi_parents H)).

  Lemma merge_ok o c (r : repo) parts :
    any_orders o -> known H c -> 1 < length (hparents H c) ->
    plain_merge H c ->
    (forall p, p ∈ hparents H c -> good H slow r p) -> parts_ok H c parts ->
    exists r' res fs, process_merge o r (hparents H c) c parts = Ret (r', res) /\
      (forall x, x <> c -> r' !! x = r !! x) /\ good H slow r' c /\ merge_result_right H slow c res /\
      r' !! c = Some fs /\
      (forall f, hi_tree H c !! f = None -> fs !! f = last (candidates H c r f)) /\
      merge_stored_right H c r fs res.
  Proof.
    intros (Ho1 & Ho2 & Ho3) Hc Hm Hplain Hgood Hparts. destruct (Hplain Hm) as [Hprefix' Hretype].
    assert (Hprefix : forall f, is_Some (hi_tree H c !! f) -> has_prefix deleted_prefix f = false).
    { intros f Hf. destruct (has_prefix deleted_prefix f) eqn:Ep; [|done]. apply has_prefix_true in Ep as [g ->]. by destruct (Hprefix' _ g Hf). }
    destruct (collect_ok k H slow HV Hk HS HA c Hc Hm Hprefix Hretype parts (o_parts o (map_to_list parts)) Hparts (Ho1 _)) as (m & E & Em & Hinv & HE).
    unfold process_merge. rewrite Em. cbn [obind].
    pose proof (c_not_parent H HA c) as Hncp.
    set (K := o_files o ((map_to_list m).*1)).
    assert (HK : forall key, key ∈ K <-> is_Some (m !! key)).
    { intros key. unfold K. rewrite (Ho2 _). rewrite elem_of_list_fmap. split.
      - intros ([key' ds] & -> & Hin). apply elem_of_map_to_list in Hin. by eexists.
      - intros [ds Hds]. exists (key, ds). split; [done|]. by apply elem_of_map_to_list. }
    destruct (phase1 k H slow HV Hk HS HA c Hc Hm Hprefix Hretype m E Hinv HE r Hgood K [] (add_commit r c, ∅)) as ([r1 res] & E1 & Hinv1).
    { cbn [app]. unfold K. rewrite (Ho2 _). apply NoDup_fst_map_to_list. }
    { intros key Hkey. by apply HK. }
    { split; cbn [fst snd].
      - intros x Hx. unfold add_commit. by rewrite lookup_insert_ne.
      - exists ∅. unfold add_commit. rewrite lookup_insert. split; [done|]. split.
        + intros f Hf. by apply elem_of_nil in Hf.
        + intros f Hf. rewrite lookup_empty in Hf. by apply is_Some_None in Hf.
      - intros f _ Hf. by apply elem_of_nil in Hf.
      - intros f Hf. rewrite lookup_empty in Hf. by apply is_Some_None in Hf. }
    rewrite E1. cbn [obind fst snd]. cbn [app] in Hinv1. destruct Hinv1 as [Io (fs1 & If & Iw & Ir) Id Ix]. cbn [fst snd] in *.
    assert (Hpar : forall p, p ∈ hparents H c -> is_Some (r1 !! p)).
    { intros p Hp. rewrite Io; [|by intros ->]. destruct (Hgood p Hp) as (fsp & -> & _). by eexists. }
    destruct (omapM_Ret (get_commit_must r1) (hparents H c)) as (fss & Efss & Hfss).
    { intros p Hp. destruct (Hpar p Hp) as [fsp E2]. unfold get_commit_must. rewrite E2. eauto. }
    unfold parent_files. rewrite Efss. cbn [obind].
    set (F := o_rest o (remove_dups (concat (map (fun fs : files => (map_to_list fs).*1) fss)))).
    assert (HF : forall f, f ∈ F <-> candidates H c r1 f <> []).
    { intros f. unfold F. rewrite (Ho3 _), elem_of_remove_dups. unfold candidates. clear -Hfss.
      induction Hfss as [|p fsp l fss Hp _ IH]; [cbn; set_solver|]. cbn. rewrite elem_of_app, IH.
      unfold get_commit_must in Hp. destruct (r1 !! p) as [fs|]; [|done]. injection Hp as ->. cbn.
      rewrite elem_of_list_fmap. destruct (fsp !! f) as [b|] eqn:Ef; cbn.
      - split; [done|]. intros _. left. exists (f, b). split; [done|]. by apply elem_of_map_to_list.
      - split; [|by right]. intros [([f' b] & -> & Hin)|?]; [|done]. apply elem_of_map_to_list in Hin. cbn in Ef. congruence. }
    destruct (phase2 k H slow HV Hk HS HA c Hc Hm Hprefix Hretype m E Hinv HE r1 fs1 Hpar If F [] r1) as (r2 & E2 & Ho & fs & Hfs & H1 & H2).
    { cbn [app]. unfold F. rewrite (Ho3 _). apply NoDup_remove_dups. }
    { intros f. apply HF. }
    { done. }
    { exists fs1. split; [done|]. split; [intros f Hf; by apply elem_of_nil in Hf|done]. }
    rewrite E2. cbn [obind]. cbn [app] in *.
    assert (Hfs_all : forall f, fs !! f = match fs1 !! f with Some b => Some b | None => last (candidates H c r f) end).
    { intros f. assert (candidates H c r1 f = candidates H c r f) as Hce.
      { unfold candidates. apply list_omap_ext. apply Forall2_same_length_lookup_2; [done|]. intros i p p' Hi Hi'.
        rewrite Hi in Hi'. injection Hi' as <-. rewrite Io; [done|]. intros ->. apply Hncp. by eapply elem_of_list_lookup_2. }
      rewrite <-Hce. destruct (decide (f ∈ F)) as [Hf|Hf]; [by apply H1|]. rewrite H2 by done.
      destruct (fs1 !! f); [done|]. rewrite HF in Hf. destruct (candidates H c r1 f); [done|]. by destruct Hf. }
    exists r2, (Result c res), fs. split_and!; try done.
    - intros x Hx. rewrite Ho by done. by apply Io.
    - exists fs. split; [done|]. intros f [e He]. rewrite Hfs_all.
      destruct (fs1 !! f) as [b|] eqn:Ef.
      + destruct (Ir f) as [Hf Hwr]; [by eexists|]. destruct (Iw f Hf Hwr) as (b' & Hb' & Hbl & _). rewrite Ef in Hb'. injection Hb' as <-. eauto.
      + assert (Hnw : ~ written H c f).
        { intros Hwr. destruct (Iw f) as (b' & Hb' & _); [|done|congruence]. apply HK. eapply written_key; done. }
        assert (Hall : forall p, p ∈ hparents H c -> hi_tree H p !! f = hi_tree H c !! f).
        { intros p Hp. apply (unwritten_same k _ _ _ f (describes_parent k H HV c p Hp)); [by eexists|].
          intros q Hq Hw. apply Hnw. by exists p, q. }
        destruct (last (candidates H c r f)) as [b|] eqn:El.
        * exists b. split; [done|]. apply last_Some in El as [l El]. assert (Hb : b ∈ candidates H c r f) by (rewrite El; set_solver).
          unfold candidates in Hb. apply elem_of_list_omap in Hb as (p & Hp & Hb). destruct (Hgood p Hp) as (fsp & Hfp & Hg).
          rewrite Hfp in Hb. cbn in Hb. destruct (Hg f) as (b' & Hb' & Hbl); [by rewrite (Hall p Hp), He|].
          rewrite Hb in Hb'. injection Hb' as <-. apply (bo_merge_same H slow c p f b); try done. by apply Hall.
        * exfalso. apply last_None in El. destruct (hparents H c) as [|p l] eqn:Ep; [cbn in Hm; lia|].
          assert (Hp : p ∈ p :: l) by by constructor. destruct (Hgood p Hp) as (fsp & Hfp & Hg).
          destruct (Hg f) as (b' & Hb' & _); [by rewrite (Hall p Hp), He|].
          assert (b' ∈ candidates H c r f) as Hin.
          { unfold candidates. apply elem_of_list_omap. exists p. rewrite Ep. split; [done|]. by rewrite Hfp. }
          rewrite El in Hin. by apply elem_of_nil in Hin.
    - split; [done|]. cbn [r_files]. split.
      + intros f [e He]. assert (Hnd : ~ deleted H c f).
        { intros (p & q & Hp & Hq & Hd). rewrite (deletes_gone k H HV c Hretype p q f Hp Hq Hd) in He. done. }
        assert (Hres : forall b, res !! f = Some b -> written H c f /\ f ∈ K).
        { intros b Hb. destruct (Ix f ltac:(by eexists)) as [?|[? _]]; done. }
        split_and!.
        * intros b Hb. destruct (Hres b Hb) as [Hwr Hf]. destruct (Iw f Hf Hwr) as (b' & _ & Hbl & [[Hr _]|[Hr _]]); congruence.
        * intros Hdiff. assert (Hwr : written H c f).
          { destruct (hparents H c) as [|p l] eqn:Ep; [cbn in Hm; lia|]. assert (Hp : p ∈ hparents H c) by (rewrite Ep; by constructor).
            pose proof (describes_parent k H HV c p Hp) as (_ & Hcov & _).
            destruct (Hcov f) as [A _]; [apply Hdiff; by constructor|]. destruct A as (q & ? & ?); [by eexists|]. by exists p, q. }
          assert (Hf : f ∈ K) by (apply HK; by eapply written_key).
          destruct (Iw f Hf Hwr) as (b' & _ & _ & [[Hr _]|[_ (p & Hp & Hs & _)]]); [by eexists|]. by destruct (Hdiff p Hp).
        * intros p b Hp Hs Hb. destruct (Hres b Hb) as [Hwr Hf].
          destruct (Iw f Hf Hwr) as (b' & _ & _ & [[Hr [Hx|Hx]]|[Hr _]]); [by destruct (Hx p Hp)|congruence|congruence].
      + intros f He. assert (Hnw : ~ written H c f).
        { intros (p & q & Hp & Hq & Hw). destruct (writes_in_tree k H HV c p q f Hp Hq Hw) as [? ?]. congruence. }
        split.
        * split; [intros Hs; by destruct (Ix f Hs) as [[? _]|[? _]]|]. intros Hd. eexists. apply Id; [done|]. apply HK. by eapply deleted_key.
        * intros b Hb. destruct (Ix f ltac:(by eexists)) as [[? _]|[? ?]]; [done|]. rewrite Id in Hb by done. by injection Hb as <-.
    - intros f He. rewrite Hfs_all. destruct (fs1 !! f) as [b|] eqn:Ef; [|done].
      destruct (Ir f) as [_ (p & q & Hp & Hq & Hw)]; [by eexists|]. destruct (writes_in_tree k H HV c p q f Hp Hq Hw) as [? ?]. congruence.
    - intros f [e He]. cbn [r_files]. rewrite Hfs_all. destruct (fs1 !! f) as [b|] eqn:Ef.
      + destruct (Ir f) as [Hf Hwr]; [by eexists|].
        destruct (Iw f Hf Hwr) as (b' & Hb & _ & [[Hr _]|[Hr (p & Hp & Ht & Hg)]]); rewrite Hr; rewrite Ef in Hb; injection Hb as <-; [done|].
        unfold get_file_optional, get_commit_must in Hg. destruct (r !! p) as [fsp|] eqn:Ep; [|done]. injection Hg as Hg.
        exists p. split_and!; [done|done| |by eexists]. rewrite Ep. cbn. by rewrite <-Hg.
      + assert (Hnw : ~ written H c f).
        { intros Hwr. destruct (Iw f) as (b' & Hb' & _); [|done|congruence]. apply HK. eapply written_key; done. }
        destruct (res !! f) as [b|] eqn:Er.
        { exfalso. destruct (Ix f ltac:(by eexists)) as [[? _]|[(p & q & Hp & Hq & Hd) _]]; [done|].
          rewrite (deletes_gone k H HV c Hretype p q f Hp Hq Hd) in He. done. }
        assert (Hall : forall p, p ∈ hparents H c -> hi_tree H p !! f = hi_tree H c !! f).
        { intros p Hp. apply (unwritten_same k _ _ _ f (describes_parent k H HV c p Hp)); [by eexists|].
          intros q Hq Hw. apply Hnw. by exists p, q. }
        destruct (last (candidates H c r f)) as [b|] eqn:El.
        * apply last_Some in El as [l El]. assert (Hb : b ∈ candidates H c r f) by (rewrite El; set_solver).
          unfold candidates in Hb. apply elem_of_list_omap in Hb as (p & Hp & Hb). exists p. split_and!; [done|by apply Hall|done|by eexists].
        * exfalso. apply last_None in El. destruct (hparents H c) as [|p l] eqn:Ep; [cbn in Hm; lia|].
          assert (Hp : p ∈ p :: l) by by constructor. destruct (Hgood p Hp) as (fsp & Hfp & Hg).
          destruct (Hg f) as (b' & Hb' & _); [by rewrite (Hall p Hp), He|].
          assert (b' ∈ candidates H c r f) as Hin.
          { unfold candidates. apply elem_of_list_omap. exists p. rewrite Ep. split; [done|]. by rewrite Hfp. }
          rewrite El in Hin. by apply elem_of_nil in Hin.
  Qed.
End merge_commit.
