(** * C86: the licence of a file *)
From Verif.Model Require Import Base GoStrings FileInfo License.
From Verif.Spec Require Import Text Records Licensing.
From Coq Require Import Lia Sorting.Permutation.

Lemma found_in order kv (l : license) : any_order order -> (l ∈ map (fun x => License x.1 x.2) (order kv) <-> kv !! li_name l = Some (li_confidence l)).
Proof.
  intros Ho. change (map (fun x => License x.1 x.2) (order kv)) with ((fun x : bytes * Z => License x.1 x.2) <$> order kv). rewrite elem_of_list_fmap. split.
  - intros ([n c] & -> & Hx). rewrite (Ho kv) in Hx. by apply elem_of_map_to_list in Hx.
  - intros Hl. exists (li_name l, li_confidence l). split; [by destruct l|]. rewrite (Ho kv). by apply elem_of_map_to_list.
Qed.
Lemma sorted_first sort ls m rest : sort_slice sort -> sort ls = m :: rest -> m ∈ ls /\ forall l, l ∈ ls -> (li_confidence l <= li_confidence m)%Z.
Proof.
  intros (Hp & Hs & _) E. split; [rewrite <- Hp, E; left|]. intros l Hl. rewrite <- Hp in Hl. apply elem_of_list_lookup in Hl as [i Hi].
  destruct i as [|i]; [rewrite E in Hi; injection Hi as ->; lia|]. pose proof (Hs ls 0 (S i) m l ltac:(by rewrite E) Hi ltac:(lia)). lia.
Qed.

(** C86: for every order of the map and every sort: a licence that is reported was found, is likely enough, and none is more likely; none is
    reported exactly if no licence found is likely enough; other errors of the detector are returned.

    Partial: among equally likely licences the choice depends on the order (below). *)
Theorem C86_detect_partial order sort r :
  any_order order -> sort_slice sort ->
  match r with
  | NoLicense => detect order sort r = Ret None
  | Failed e => detect order sort r = Err e
  | Found kv =>
      (exists l, detect order sort r = Ret (Some l) /\ most_likely kv l /\ likely_enough (li_confidence l)) \/
      (detect order sort r = Ret None /\ forall n c, kv !! n = Some c -> ~ likely_enough c)
  end.
Proof.
  intros Ho Hs. destruct r as [|e|kv]; [done|done|]. cbn [detect]. destruct (sort _) as [|m rest] eqn:E.
  - right. split; [done|]. intros n c Hc _. apply (found_in order kv (License n c) Ho) in Hc. destruct Hs as [Hp _]. rewrite <- Hp, E in Hc. by apply elem_of_nil in Hc.
  - destruct (sorted_first sort _ m rest Hs E) as [Hm Hmax]. apply (found_in order kv m Ho) in Hm.
    assert (Hall : forall n c, kv !! n = Some c -> (c <= li_confidence m)%Z) by (intros n c Hc; by apply (found_in order kv (License n c) Ho), Hmax in Hc).
    destruct (Z.leb_spec min_confidence (li_confidence m)) as [Hle|Hlt]; unfold min_confidence in *.
    + left. exists m. split; [done|]. split; [by split|exact Hle].
    + right. split; [done|]. intros n c Hc Hk. apply Hall in Hc. unfold likely_enough in Hk. lia.
Qed.
Print Assumptions C86_detect_partial.

(** C86: if one of the licences is more likely than all others, the result does not depend on orders. *)
Theorem C86_clear_winner_partial order sort kv l :
  any_order order -> sort_slice sort -> clear_winner kv l ->
  (likely_enough (li_confidence l) -> detect order sort (Found kv) = Ret (Some l)) /\ (~ likely_enough (li_confidence l) -> detect order sort (Found kv) = Ret None).
Proof.
  intros Ho Hs [Hl Hw]. destruct (C86_detect_partial order sort (Found kv) Ho Hs) as [(l' & E & [H1 H2] & H3)|[E Hn]].
  - assert (l' = l) as ->.
    { destruct (decide (li_name l' = li_name l)) as [En|En]; [rewrite En, Hl in H1; injection H1 as Ec; destruct l, l'; cbn in *; congruence|].
      apply Hw in H1; [|done]. apply H2 in Hl. lia. }
    split; [done|]. intros Hx. by destruct (Hx H3).
  - split; [intros Hx; by destruct (Hn _ _ Hl)|done].
Qed.
Print Assumptions C86_clear_winner_partial.

(** The full statement: the licence reported depends on what the database finds only. *)
Definition licence_is_determined : Prop :=
  forall order1 order2 sort r, any_order order1 -> any_order order2 -> sort_slice sort -> detect order1 sort r = detect order2 sort r.
(** An order that begins with what [first] says. *)
Definition order_from (first : gmap bytes Z -> option bytes) (kv : gmap bytes Z) : list (bytes * Z) :=
  match first kv with Some n => match kv !! n with Some c => (n, c) :: map_to_list (delete n kv) | None => map_to_list kv end | None => map_to_list kv end.
Lemma order_from_any first : any_order (order_from first).
Proof.
  intros kv. unfold order_from. destruct (first kv) as [n|]; [|done]. destruct (kv !! n) as [c|] eqn:E; [|done]. by rewrite map_to_list_delete.
Qed.
(** It is false of every sort that sort.Slice may be: any two licences that are equally likely (and likely enough) are reported in turn. *)
Theorem C86_equally_likely_refuted sort n1 n2 c :
  sort_slice sort -> n1 <> n2 -> likely_enough c ->
  exists order1 order2, any_order order1 /\ any_order order2 /\
    detect order1 sort (Found {[ n1 := c; n2 := c ]}) = Ret (Some (License n1 c)) /\ detect order2 sort (Found {[ n1 := c; n2 := c ]}) = Ret (Some (License n2 c)).
Proof.
  intros (Hp & Hs & H2) Hne Hc. exists (order_from (fun _ => Some n1)), (order_from (fun _ => Some n2)). split; [apply order_from_any|]. split; [apply order_from_any|].
  assert (Hmin : (min_confidence <=? c)%Z = true) by (by apply Z.leb_le).
  assert (Htie : forall a b, sort [License a c; License b c] = [License a c; License b c]).
  { intros a b. rewrite H2. cbn [li_confidence]. destruct (Z.gtb_spec c c); [lia|done]. }
  split; cbn [detect].
  - assert (E : order_from (fun _ => Some n1) {[ n1 := c; n2 := c ]} = [(n1, c); (n2, c)]).
    { unfold order_from. rewrite lookup_insert. f_equal. rewrite delete_insert by (by apply lookup_singleton_ne). apply map_to_list_singleton. }
    rewrite E. cbn [map fst snd]. rewrite Htie. cbn [li_confidence]. by rewrite Hmin.
  - assert (E : order_from (fun _ => Some n2) {[ n1 := c; n2 := c ]} = [(n2, c); (n1, c)]).
    { unfold order_from. rewrite lookup_insert_ne, lookup_singleton by done. f_equal. rewrite delete_insert_ne, delete_singleton by done. rewrite insert_empty. apply map_to_list_singleton. }
    rewrite E. cbn [map fst snd]. rewrite Htie. cbn [li_confidence]. by rewrite Hmin.
Qed.
Print Assumptions C86_equally_likely_refuted.

(** A sort that sort.Slice may be: insertion. *)
Fixpoint put (x : license) (l : list license) : list license :=
  match l with [] => [x] | y :: r => if (li_confidence x >? li_confidence y)%Z then x :: l else y :: put x r end.
Definition insertion (l : list license) : list license := fold_left (fun acc x => put x acc) l [].
Lemma put_perm x l : put x l ≡ₚ x :: l.
Proof. induction l as [|y r IH]; [done|]. cbn [put]. destruct (_ >? _)%Z; [done|]. rewrite IH. apply Permutation_swap. Qed.
Definition down (l : list license) : Prop := forall i j a b, l !! i = Some a -> l !! j = Some b -> i < j -> (li_confidence b <= li_confidence a)%Z.
Lemma down_cons y r : down (y :: r) <-> (forall a, a ∈ r -> (li_confidence a <= li_confidence y)%Z) /\ down r.
Proof.
  split.
  - intros Hd. split.
    + intros a [i Hi]%elem_of_list_lookup. apply (Hd 0 (S i) y a eq_refl Hi). lia.
    + intros i j a b Hi Hj Hij. apply (Hd (S i) (S j) a b Hi Hj). lia.
  - intros [H1 H2] [|i] [|j] a b Hi Hj Hij; [lia| |lia|].
    + injection Hi as ->. apply H1. by eapply elem_of_list_lookup_2.
    + apply (H2 i j a b Hi Hj). lia.
Qed.
Lemma put_down x l : down l -> down (put x l).
Proof.
  induction l as [|y r IH]; intros Hd; cbn [put].
  - intros [|i] [|j] a b Hi Hj Hij; [lia|discriminate Hj|lia|discriminate Hi].
  - pose proof (proj1 (down_cons y r) Hd) as [H1 H2]. destruct (Z.gtb_spec (li_confidence x) (li_confidence y)) as [Hgt|Hle].
    + apply down_cons. split; [|exact Hd]. intros a [->|Ha]%elem_of_cons; [lia|]. apply H1 in Ha. lia.
    + apply down_cons. split; [|by apply IH]. intros a Ha. rewrite put_perm in Ha. apply elem_of_cons in Ha as [->|Ha]; [lia|by apply H1].
Qed.
Lemma insertion_sorts : sort_slice insertion.
Proof.
  assert (Hg : forall l acc, fold_left (fun acc x => put x acc) l acc ≡ₚ l ++ acc /\ (down acc -> down (fold_left (fun acc x => put x acc) l acc))).
  { induction l as [|x l IH]; intros acc; cbn [fold_left app]; [done|]. destruct (IH (put x acc)) as [IH1 IH2]. split.
    - rewrite IH1, put_perm. by rewrite Permutation_middle.
    - intros Hd. by apply IH2, put_down. }
  split; [intros l; unfold insertion; rewrite (proj1 (Hg l [])); by rewrite app_nil_r|]. split; [|done].
  intros l i j a b Hi Hj Hij. assert (Hd : down (insertion l)) by (apply Hg; intros i' j' a' b' Hi'; discriminate Hi').
  pose proof (Hd i j a b Hi Hj Hij). lia.
Qed.
Theorem C86_determined_refuted : ~ licence_is_determined.
Proof.
  intros Hd. destruct (C86_equally_likely_refuted insertion (B "GPL-3.0-only") (B "GPL-3.0-or-later") (14260634 * 2 ^ 125) insertion_sorts ltac:(discriminate) ltac:(unfold likely_enough; lia))
    as (o1 & o2 & H1 & H2 & E1 & E2). rewrite (Hd o1 o2 insertion _ H1 H2 insertion_sorts), E2 in E1. discriminate E1.
Qed.
Print Assumptions C86_determined_refuted.

(** What it means for the records of a call: the information on one file with one content differs from call to call. *)
Theorem C86_file_info_refuted cl :
  exists order1 order2 db p content lines i1 i2 cache,
    any_order order1 /\ any_order order2 /\
    get_info (with_detect cl order1 insertion db) ∅ p content lines = Ret (i1, cache) /\ get_info (with_detect cl order2 insertion db) ∅ p content lines = Ret (i2, cache) /\ i1 <> i2.
Proof.
  destruct (C86_equally_likely_refuted insertion (B "GPL-3.0-only") (B "GPL-3.0-or-later") (14260634 * 2 ^ 125) insertion_sorts ltac:(discriminate) ltac:(unfold likely_enough; lia))
    as (o1 & o2 & H1 & H2 & E1 & E2).
  exists o1, o2, (fun _ _ => Found {[ B "GPL-3.0-only" := (14260634 * 2 ^ 125)%Z; B "GPL-3.0-or-later" := (14260634 * 2 ^ 125)%Z ]}), (B "COPYING"), [], []. eexists _, _, ∅. split; [exact H1|]. split; [exact H2|].
  assert (Ep : possible_license (B "COPYING") = true) by (vm_compute; reflexivity).
  split; [unfold get_info; rewrite Ep; cbn [with_detect cl_license]; rewrite E1; reflexivity|].
  split; [unfold get_info; rewrite Ep; cbn [with_detect cl_license]; rewrite E2; reflexivity|]. discriminate.
Qed.
Print Assumptions C86_file_info_refuted.

(** The detector of a call works ([detector_works], as C47, C77 and others assume), if the database only ever fails to find a licence. *)
Theorem C86_detector_works cl order sort db :
  (forall p content e, db p content <> Failed e) -> detector_works (with_detect cl order sort db).
Proof.
  intros Hdb p content. cbn [with_detect cl_license]. destruct (db p content) as [|e|kv] eqn:E; [by eexists|by destruct (Hdb _ _ _ E)|].
  cbn [detect]. destruct (sort _); [by eexists|]. destruct (_ <=? _)%Z; by eexists.
Qed.
Print Assumptions C86_detector_works.

(** Licences of various likelihood, and what is reported: the hypotheses of the theorems above hold of them. *)
Example C86_hypotheses_hold :
  any_order map_to_list /\ sort_slice insertion /\
  let kv := {[ B "MIT" := (15938355 * 2 ^ 125)%Z; B "ISC" := (14260634 * 2 ^ 125)%Z; B "X11" := 7%Z ]} : gmap bytes Z in
  clear_winner kv (License (B "MIT") (15938355 * 2 ^ 125)) /\ detect map_to_list insertion (Found kv) = Ret (Some (License (B "MIT") (15938355 * 2 ^ 125))) /\
  detect map_to_list insertion (Found {[ B "X11" := (14260633 * 2 ^ 125)%Z ]}) = Ret None.
Proof.
  split; [intros kv; reflexivity|]. split; [exact insertion_sorts|]. intros kv. split.
  - split; [vm_compute; reflexivity|]. intros n c Hc Hn. cbn [li_name li_confidence] in *. subst kv.
    rewrite lookup_insert_ne in Hc by done. destruct (decide (n = B "ISC")) as [->|N1]; [rewrite lookup_insert in Hc; injection Hc as <-; lia|].
    rewrite lookup_insert_ne in Hc by done. destruct (decide (n = B "X11")) as [->|N2]; [rewrite lookup_singleton in Hc; injection Hc as <-; lia|]. by rewrite lookup_singleton_ne in Hc.
  - split; vm_compute; reflexivity.
Qed.
