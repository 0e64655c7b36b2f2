(** * Checking concrete graphs *)
From Verif.Model Require Import Base GoStrings GoSort ParentsGraph Branches HistoryGraph.
From Verif.Spec Require Import CommitGraph.
From Verif.Proofs Require Import SortLemmas Dfs ParentsGraphProofs BranchProofs BranchMore LastCommonParentProofs.
From Coq Require Import Lia.

Lemma parent_entry g x y : parent g x y -> exists ps, (x, ps) ∈ map_to_list g /\ y ∈ ps.
Proof.
  unfold parent, parents. destruct (g !! x) as [ps|] eqn:E; [|set_solver]. intros H. exists ps. split; [|done].
  by apply elem_of_map_to_list.
Qed.
Definition rank_ok (r : bytes -> nat) (g : graph) : bool :=
  forallb (fun e : bytes * list bytes => forallb (fun p => Nat.ltb (r p) (r e.1)) e.2) (map_to_list g).
Lemma acyclic_check r g : rank_ok r g = true -> acyclic g.
Proof.
  intros H. assert (forall x y, parent g x y -> r y < r x) as Hr.
  { intros x y (ps & Hx & Hy)%parent_entry. unfold rank_ok in H. rewrite forallb_forall in H.
    specialize (H _ (proj1 (elem_of_list_In _ _) Hx)). cbn in H. rewrite forallb_forall in H.
    apply Nat.ltb_lt, H. by apply elem_of_list_In. }
  assert (forall x y, ancestor g x y -> r y < r x) as Ht.
  { intros x y Hxy. induction Hxy as [x y Hxy|x y z Hxy _ IH]; [by apply Hr|]. apply Hr in Hxy. lia. }
  intros c Hc. apply Ht in Hc. lia.
Qed.
Definition complete_ok (g : graph) : bool :=
  forallb (fun e : bytes * list bytes => forallb (fun p => match g !! p with Some _ => true | None => false end) e.2) (map_to_list g).
Lemma complete_check g : complete_ok g = true -> complete g.
Proof.
  intros H x y (ps & Hx & Hy)%parent_entry. unfold complete_ok in H. rewrite forallb_forall in H.
  specialize (H _ (proj1 (elem_of_list_In _ _) Hx)). cbn in H. rewrite forallb_forall in H.
  specialize (H _ (proj1 (elem_of_list_In _ _) Hy)). destruct (g !! y); [eauto|done].
Qed.
Lemma reaches_check g d R : reachable_from_head g d = Ret R -> forall x, reaches g d x <-> x ∈ R.
Proof. intros H x. destruct (reachable_exact g d) as (R' & H' & _ & HR). rewrite H in H'. injection H' as <-. by rewrite HR. Qed.
Definition is_key (g : graph) (x : bytes) : bool := match g !! x with Some _ => true | None => false end.
Lemma is_key_check g x : is_key g x = true -> is_Some (g !! x).
Proof. unfold is_key. destruct (g !! x); [eauto|done]. Qed.

Definition mk (l : list (string * list string)) : graph := list_to_map (map (fun e => (B e.1, map B e.2)) l).
(** Names here end in a digit giving the commit's height. *)
Definition rank_of (s : bytes) : nat := match rev s with c :: _ => nat_of_ascii c | [] => 0 end.
Lemma id_any_order : any_order (fun l => l).
Proof. by intros l. Qed.
