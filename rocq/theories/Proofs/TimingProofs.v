(** * The slowest commits (C34) *)
From Verif.Model Require Import Base Timing.
From Verif.Spec Require Import Processing.
From Coq Require Import Lia.

Lemma ss_app {A} (R : A -> A -> Prop) l1 l2 : StronglySorted R (l1 ++ l2) ->
  StronglySorted R l1 /\ (forall x y, x ∈ l1 -> y ∈ l2 -> R x y).
Proof.
  induction l1 as [|a l1 IH]; cbn; intros H.
  - split; [constructor|]. intros x y Hx. by apply elem_of_nil in Hx.
  - apply StronglySorted_inv in H as [H HF]. destruct (IH H) as [H1 H2]. apply Forall_app in HF as [F1 F2]. split.
    + by constructor.
    + intros x y [->|Hx]%elem_of_cons Hy; [|by apply H2]. rewrite Forall_forall in F2. by apply F2.
Qed.

Lemma slowest_step srt all l c : sorts_desc srt -> slowest_of all l -> slowest_of (all ++ [c]) (update_slowest srt l c).
Proof.
  intros Hs (rest & Hp & Hl & Hso & Hle). destruct (Hs (l ++ [c])) as [P S]. unfold update_slowest, max_slowest.
  pose proof (Permutation_length P) as Pl. rewrite app_length in Pl. cbn [length] in Pl.
  pose proof (Permutation_length Hp) as Pa. rewrite app_length in Pa.
  destruct (decide (10 < length (srt (l ++ [c])))) as [Hd|Hd].
  - set (s := srt (l ++ [c])) in *. exists (drop 10 s ++ rest). split_and!.
    + rewrite app_assoc, take_drop, P, <-Hp. rewrite <-!app_assoc. apply Permutation_app_head. apply Permutation_app_comm.
    + rewrite take_length, app_length. cbn [length]. lia.
    + rewrite <-(take_drop 10 s) in S. by apply ss_app in S as [? _].
    + intros x y Hx Hy. rewrite <-(take_drop 10 s) in S. apply ss_app in S as [S1 S2]. apply elem_of_app in Hy as [Hy|Hy]; [by apply S2|].
      (* x is at least as slow as the element dropped, and some element of l is in the dropped part or all of l is kept *)
      destruct (decide (x ∈ l)) as [Hxl|Hxl]; [by apply Hle|].
      assert (Hlen : length l = 10) by lia.
      assert (Hnot : exists z, z ∈ l /\ z ∈ drop 10 s).
      { assert (Hxc : x = c).
        { assert (x ∈ s) as Hxs by (rewrite <-(take_drop 10 s); set_solver). rewrite P in Hxs. set_solver. }
        subst x. assert (Hdl : length (drop 10 s) = 1) by (rewrite drop_length; lia).
        destruct (drop 10 s) as [|z [|]] eqn:Ed; [done| |done]. exists z. split; [|by constructor].
        destruct (decide (z ∈ l)) as [|Hz]; [done|]. exfalso.
        assert (z ∈ s) as Hzs by (rewrite <-(take_drop 10 s), Ed; set_solver). rewrite P in Hzs.
        assert (z = c) as -> by set_solver.
        assert (Pc : take 10 s ≡ₚ l).
        { apply (Permutation_app_inv_r [c]). rewrite <-Ed at 1. by rewrite take_drop. }
        rewrite Pc in Hx. done. }
      destruct Hnot as (z & Hzl & Hzd). specialize (S2 x z Hx Hzd). specialize (Hle z y Hzl Hy). cbn in S2. lia.
  - exists rest. split_and!.
    + rewrite P, <-Hp, <-!app_assoc. apply Permutation_app_head. apply Permutation_app_comm.
    + rewrite app_length. cbn [length]. lia.
    + done.
    + intros x y Hx Hy. assert (rest = []) as -> by (destruct rest; [done|]; cbn in Pa; lia). by apply elem_of_nil in Hy.
Qed.
Lemma slowest_all srt cs : sorts_desc srt -> slowest_of cs (foldl (update_slowest srt) [] cs).
Proof.
  intros Hs. induction cs as [|c cs IH] using rev_ind.
  - exists []. split_and!; [done|done|constructor|]. intros x y Hx. by apply elem_of_nil in Hx.
  - rewrite foldl_app. cbn. by apply slowest_step.
Qed.
Lemma slowest_sum l : slowest_dur l = foldr (fun c s => (t_dur c + s)%Z) 0%Z l.
Proof.
  unfold slowest_dur. assert (forall z, foldl (fun s c => s + t_dur c)%Z z l = (z + foldr (fun c s => (t_dur c + s)%Z) 0%Z l)%Z) as ->; [|lia].
  induction l as [|c l IH]; intros z; cbn; [lia|]. rewrite IH. lia.
Qed.
