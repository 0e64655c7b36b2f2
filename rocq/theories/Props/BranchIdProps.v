(** * Property C105: the identifiers of branches *)
From Verif.Model Require Import Base GoStrings GoSort ParentsGraph Branches.
From Verif.Spec Require Import Text GitLog CommitGraph BranchIds.
From Verif.Proofs Require Import SortLemmas ParentsGraphProofs BranchProofs BranchMore BranchIdProofs GraphExamples.
From Coq Require Import Lia.

(** The identifier stays the same while the branch and the default branch get commits, and when the branch is merged. *)
Theorem C105_stays_partial rng rng' sha g g' es es' d d' b b' name :
  any_order rng -> any_order rng' -> es ≡ₚ map_to_list g -> es' ≡ₚ map_to_list g' ->
  complete g -> complete g' -> acyclic g' ->
  is_Some (g !! d) -> is_Some (g !! b) -> is_Some (g' !! d') -> is_Some (g' !! b') ->
  ~ reaches g d b -> branch_grew g d b g' d' b' ->
  exists br br', branch_info rng sha g (children_from_parents es) d name b = Ret (Some br) /\
    branch_info rng' sha g' (children_from_parents es') d' name b' = Ret (Some br') /\
    br_from br' = br_from br /\ (name <> [] -> br_id br' = br_id br).
Proof.
  intros R R' E E' Hc Hc' Hac Kd Kb Kd' Kb' Hn Hgrew.
  assert (acyclic g) as Hac0.
  { intros c Hcc. apply (Hac c). by apply (grew_ancestor g); [apply Hgrew|]. }
  destruct (record_points rng sha g es d b name) as (br & -> & Hm & S & L & I); try done.
  destruct (record_points rng' sha g' es' d' b' name) as (br' & -> & _ & S' & L' & I'); try done.
  assert (br_from br' = br_from br) as Hf.
  { eapply points_same; [exact S|exact S'|exact L|exact L'|]. by eapply same_points. }
  exists br, br'. split_and!; try done. intros Hname. by rewrite I, I', Hf.
Qed.
Print Assumptions C105_stays_partial.

(** The branch takes the newest commit of the default branch, then is merged. *)
Definition id_before : graph := mk [("m0", []); ("b1", ["m0"]); ("m1", ["m0"])]%string.
Definition id_after : graph :=
  mk [("m0", []); ("b1", ["m0"]); ("m1", ["m0"]); ("m2", ["m1"]); ("b3", ["b1"; "m2"]); ("m4", ["m2"; "b3"])]%string.
Lemma id_before_has x : default_has id_before (B "m1") (B "b1") x <-> x ∈ [B "m0"; B "m1"].
Proof. rewrite default_has_cut. apply reaches_check. vm_compute. reflexivity. Qed.
Lemma id_after_has x : default_has id_after (B "m4") (B "b3") x <-> x ∈ [B "b3"; B "m0"; B "m1"; B "m2"; B "m4"].
Proof. rewrite default_has_cut. apply reaches_check. vm_compute. reflexivity. Qed.
Lemma id_after_branch x : reaches id_after (B "b3") x <-> x ∈ [B "m1"; B "m2"; B "m0"; B "b1"; B "b3"].
Proof. apply reaches_check. vm_compute. reflexivity. Qed.
Lemma id_before_branch x : reaches id_before (B "b1") x <-> x ∈ [B "m0"; B "b1"].
Proof. apply reaches_check. vm_compute. reflexivity. Qed.
Ltac parent_by_look := unfold parent; apply (bool_decide_unpack _); vm_compute; exact I.
Example C105_hypotheses_hold :
  complete id_before /\ complete id_after /\ acyclic id_after /\ ~ reaches id_before (B "m1") (B "b1") /\
  branch_grew id_before (B "m1") (B "b1") id_after (B "m4") (B "b3") /\
  hashes_of_length 2 id_before /\ no_collisions (fun s => s) /\
  branch_info (fun l => l) (fun s => s) id_after (children_from_parents (map_to_list id_after)) (B "m4") (B "t") (B "b3")
  = Ret (Some (Branch (B "tm0") (B "t") false (B "b3") false true (B "m4") [B "m0"] [B "b1"; B "b3"] 0 2 (B "b1"))).
Proof.
  assert (on_branch id_before (B "m1") (B "b1") (B "b1")) as Hb by by left.
  split_and!.
  - apply complete_check. vm_compute. reflexivity.
  - apply complete_check. vm_compute. reflexivity.
  - apply (acyclic_check rank_of). vm_compute. reflexivity.
  - rewrite reaches_check; [|vm_compute; reflexivity]. apply (bool_decide_unpack _). vm_compute. exact I.
  - split.
    + intros c ps Hl. apply elem_of_map_to_list in Hl.
      assert (Forall (fun e => id_after !! e.1 = Some e.2) (map_to_list id_before)) as F.
      { apply (bool_decide_unpack _). vm_compute. exact I. }
      rewrite Forall_forall in F. apply (F _ Hl).
    + apply id_after_branch. set_solver.
    + apply id_after_has. apply (bool_decide_unpack _). vm_compute. exact I.
    + intros c Hc Hne. rewrite id_after_has. assert (c ∈ [B "m0"; B "b1"]) as Hin.
      { apply id_before_branch. destruct Hc as [->|[H _]]; [apply rtc_refl|apply rtc_tc; by right]. }
      apply elem_of_cons in Hin as [->|Hin%elem_of_list_singleton]; [|subst c].
      * exfalso. destruct Hc as [Hc|[_ Hc]]; [done|]. apply Hc, id_before_has. by left.
      * apply (bool_decide_unpack _). vm_compute. exact I.
    + intros c x Hc Hold Hp Hx. assert (c = B "b3") as ->.
      { assert (c ∈ [B "m1"; B "m2"; B "m0"; B "b1"; B "b3"]) as Hin.
        { apply id_after_branch. destruct Hc as [->|[H _]]; [apply rtc_refl|apply rtc_tc; by right]. }
        destruct Hc as [->|[_ Hc]]; [done|]. rewrite id_after_has in Hc.
        repeat (apply elem_of_cons in Hin as [->|Hin]; [try done; exfalso; apply Hc, (bool_decide_unpack _); vm_compute; exact I|]).
        by apply elem_of_nil in Hin. }
      exists (B "m0"). split.
      * split; [apply id_before_has; by left|]. exists (B "b1"). split; [done|]. parent_by_look.
      * assert (x ∈ [B "b1"; B "m2"]) as Hin by exact Hp. apply elem_of_cons in Hin as [->|Hin%elem_of_list_singleton]; [|subst x].
        -- eapply rtc_l; [|apply rtc_refl]. parent_by_look.
        -- eapply rtc_l; [|eapply rtc_l; [|apply rtc_refl]]; [instantiate (1 := B "m1")|]; parent_by_look.
  - intros c ps Hl. apply elem_of_map_to_list in Hl.
    assert (Forall (fun e : bytes * list bytes => length e.1 = 2) (map_to_list id_before)) as F.
    { apply (bool_decide_unpack _). vm_compute. exact I. }
    rewrite Forall_forall in F. apply (F _ Hl).
  - by intros s t.
  - vm_compute. reflexivity.
Qed.

(** Two branches of one repository with different names have different identifiers, and none has the identifier of the
    default branch, unless one of the names is the other one followed by the hash of a commit. *)
Theorem C105_distinct_partial rng sha n g es d b1 b2 name1 name2 :
  any_order rng -> es ≡ₚ map_to_list g -> no_collisions sha -> hashes_of_length n g ->
  complete g -> acyclic g -> is_Some (g !! d) -> is_Some (g !! b1) -> is_Some (g !! b2) ->
  name1 <> [] -> name2 <> [] -> name1 <> name2 ->
  (forall c, is_Some (g !! c) -> name1 <> name2 ++ c /\ name2 <> name1 ++ c) ->
  exists br1 br2, branch_info rng sha g (children_from_parents es) d name1 b1 = Ret (Some br1) /\
    branch_info rng sha g (children_from_parents es) d name2 b2 = Ret (Some br2) /\
    br_id br1 <> br_id br2 /\
    (forall first dr, default_record sha g name2 d first = Ret dr -> br_id br1 <> br_id dr).
Proof.
  intros R E Hsha Hlen Hc Hac Kd K1 K2 N1 N2 Hne Hno.
  destruct (record_points rng sha g es d b1 name1) as (br1 & -> & M1 & _ & L1 & I1); try done.
  destruct (record_points rng sha g es d b2 name2) as (br2 & -> & M2 & _ & L2 & I2); try done.
  assert (forall b br, lists_exactly (br_from br) (fun x => leaves_at g d b x /\ ~ exists y, leaves_at g d b y /\ ancestor g x y) ->
    forall x, x ∈ br_from br -> is_Some (g !! x)) as K.
  { intros b br [_ L] x Hx. apply L in Hx as [[Hx _] _]. eapply (reaches_key g); [done|exact Kd|]. by eapply avoiding_reaches. }
  specialize (K b1 br1 L1) as P1. specialize (K b2 br2 L2) as P2.
  exists br1, br2. split_and!; try done.
  - rewrite I1, I2 by done. intros Heq%Hsha.
    destruct (br_from br1) as [|x l] eqn:E1; destruct (br_from br2) as [|y l'] eqn:E2; rewrite ?app_nil_r in Heq.
    + done.
    + assert (is_Some (g !! y)) as Ky by (apply P2; by left). by destruct (Hno y Ky).
    + assert (is_Some (g !! x)) as Kx by (apply P1; by left). by destruct (Hno x Kx).
    + assert (is_Some (g !! x)) as [ps Kx] by (apply P1; by left).
      assert (is_Some (g !! y)) as [ps' Ky] by (apply P2; by left).
      apply (same_hash_parts n) in Heq as [? _]; [done|by eapply Hlen|by eapply Hlen].
  - intros first dr Hdr. unfold default_record in Hdr. destruct (get_all_commits g d) as [cs|e|m]; cbn in Hdr; try done.
    injection Hdr as <-. cbn. unfold branch_id. rewrite app_nil_r, I1 by done. intros Heq%Hsha.
    destruct (br_from br1) as [|x l] eqn:E1; rewrite ?app_nil_r in Heq; [done|].
    assert (is_Some (g !! x)) as Kx by (apply P1; by left). by destruct (Hno x Kx).
Qed.
Print Assumptions C105_distinct_partial.

(** A name used again, in the same or a grown repository, for a branch that left the default branch elsewhere, gets
    another identifier; only the first of the places matters. *)
Theorem C105_reuse_partial rng sha g g' es es' d d' b b' name x l x' l' br br' :
  any_order rng -> es ≡ₚ map_to_list g -> es' ≡ₚ map_to_list g' -> no_collisions sha ->
  complete g -> acyclic g -> is_Some (g !! d) -> is_Some (g !! b) ->
  complete g' -> acyclic g' -> is_Some (g' !! d') -> is_Some (g' !! b') -> name <> [] ->
  branch_info rng sha g (children_from_parents es) d name b = Ret (Some br) ->
  branch_info rng sha g' (children_from_parents es') d' name b' = Ret (Some br') ->
  br_from br = x :: l -> br_from br' = x' :: l' -> (br_id br = br_id br' <-> x = x').
Proof.
  intros R E E' Hsha Hc Hac Kd Kb Hc' Hac' Kd' Kb' Hname Hr Hr' Hf Hf'.
  destruct (record_points rng sha g es d b name) as (br0 & Hr0 & _ & _ & _ & I); try done.
  rewrite Hr in Hr0. injection Hr0 as <-.
  destruct (record_points rng sha g' es' d' b' name) as (br0' & Hr0 & _ & _ & _ & I'); try done.
  rewrite Hr' in Hr0. injection Hr0 as <-.
  rewrite I, I', Hf, Hf' by done. split; [|by intros ->]. intros Heq%Hsha. by apply app_inv_head in Heq.
Qed.
Print Assumptions C105_reuse_partial.

(** ** What is false *)
Definition before_graph : graph := mk [("m0", []); ("b1", ["m0"])]%string.
Definition ff (sha : bytes -> bytes) (d b : string) : outcome (option branch) :=
  branch_info (fun l => l) sha before_graph (children_from_parents (map_to_list before_graph)) (B d) (B "t") (B b).
(** Merging a branch by a fast forward changes its identifier: it no longer has a place where it left. *)
Theorem C105_fast_forward_refuted sha : no_collisions sha ->
  exists br br', ff sha "m0" "b1" = Ret (Some br) /\ ff sha "b1" "b1" = Ret (Some br') /\
    br_from br = [B "m0"] /\ br_from br' = [] /\ br_id br' <> br_id br.
Proof.
  intros H. do 2 eexists. split_and!; [vm_compute; reflexivity|vm_compute; reflexivity|reflexivity|reflexivity|].
  cbn. by intros [=]%H.
Qed.
Print Assumptions C105_fast_forward_refuted.

Definition reused_graph : graph := mk [("m0", []); ("b1", ["m0"]); ("c1", ["m0"])]%string.
(** A branch deleted and made anew under the same name at the same place, with none of the old commits, has the
    identifier of the deleted one, although its first commit is another. *)
Theorem C105_reuse_refuted sha :
  exists br br', ff sha "m0" "b1" = Ret (Some br) /\
    branch_info (fun l => l) sha reused_graph (children_from_parents (map_to_list reused_graph)) (B "m0") (B "t") (B "c1") = Ret (Some br') /\
    br_commits br = [B "b1"] /\ br_commits br' = [B "c1"] /\ br_first br <> br_first br' /\ br_id br' = br_id br.
Proof.
  do 2 eexists. split_and!; [vm_compute; reflexivity|vm_compute; reflexivity|reflexivity|reflexivity|done|reflexivity].
Qed.
Print Assumptions C105_reuse_refuted.

Definition orphan_graph : graph := mk [("m0", []); ("b1", ["m0"]); ("o1", [])]%string.
(** Two branches, one of them with a history of its own, with the same identifier. *)
Theorem C105_same_id_refuted sha :
  exists br br',
    branch_info (fun l => l) sha orphan_graph (children_from_parents (map_to_list orphan_graph)) (B "m0") (B "t") (B "b1") = Ret (Some br) /\
    branch_info (fun l => l) sha orphan_graph (children_from_parents (map_to_list orphan_graph)) (B "m0") (B "tm0") (B "o1") = Ret (Some br') /\
    br_name br <> br_name br' /\ br_head br <> br_head br' /\ br_id br' = br_id br.
Proof.
  do 2 eexists. split_and!; [vm_compute; reflexivity|vm_compute; reflexivity|done|done|reflexivity].
Qed.
Print Assumptions C105_same_id_refuted.
