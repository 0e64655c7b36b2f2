(** * Every bounded net reaches a final state *)
From Verif.Model Require Import Base Net.
From Coq Require Import Lia.

Section NetFinal.
Context {Ch V L : Type} `{Countable Ch} (act : L -> action Ch V L).
Definition can_meet (cl : gset Ch) (a b : action Ch V L) : bool := match a, b with Send c _ _, Recv c' _ => bool_decide (c = c' /\ c ∉ cl) | _, _ => false end.
Definition can_go (cl : gset Ch) (a : action Ch V L) : bool := match a with Recv c _ => bool_decide (c ∈ cl) | Close c _ => bool_decide (c ∉ cl) | _ => false end.
Lemma step_or_final (c : config Ch L) : (exists c', step act c c') \/ final act c.
Proof.
  destruct c as [ls cl].
  destruct (decide (Exists (fun l => can_go cl (act l) = true) ls)) as [Hg|Hg].
  { left. apply Exists_exists in Hg as (l & Hl & Hg). apply elem_of_list_lookup in Hl as [i Hi]. unfold can_go in Hg.
    destruct (act l) as [c v k|c k|c k| |] eqn:E; try discriminate Hg; apply bool_decide_eq_true in Hg; eexists; [exact (step_eof act ls cl i l c k Hi E Hg)|exact (step_close act ls cl i l c k Hi E Hg)]. }
  destruct (decide (Exists (fun l => Exists (fun l' => can_meet cl (act l) (act l') = true) ls) ls)) as [Hm|Hm].
  { left. apply Exists_exists in Hm as (l & Hl & Hm). apply Exists_exists in Hm as (l' & Hl' & Hm). apply elem_of_list_lookup in Hl as [i Hi]. apply elem_of_list_lookup in Hl' as [j Hj].
    unfold can_meet in Hm. destruct (act l) as [c v k|c k|c k| |] eqn:E; try discriminate Hm. destruct (act l') as [c' v' k'|c' k'|c' k'| |] eqn:E'; try discriminate Hm.
    apply bool_decide_eq_true in Hm as [<- Hn]. eexists. exact (step_comm act ls cl i j l l' _ v k k' Hi E Hj E' Hn). }
  right. intros c' Hs. inversion Hs as [ls0 cl0 i j l l' c v k kr Hi Ha Hj Ha' Hn E1 E2|ls0 cl0 j l c kr Hj Ha Hn E1 E2|ls0 cl0 i l c k Hi Ha Hn E1 E2]; subst.
  - apply Hm. apply Exists_exists. exists l. split; [by eapply elem_of_list_lookup_2|]. apply Exists_exists. exists l'. split; [by eapply elem_of_list_lookup_2|].
    rewrite Ha, Ha'. cbn [can_meet]. by apply bool_decide_eq_true.
  - apply Hg. apply Exists_exists. exists l. split; [by eapply elem_of_list_lookup_2|]. rewrite Ha. cbn [can_go]. by apply bool_decide_eq_true.
  - apply Hg. apply Exists_exists. exists l. split; [by eapply elem_of_list_lookup_2|]. rewrite Ha. cbn [can_go]. by apply bool_decide_eq_true.
Qed.
Lemma bounded_final (s : config Ch L) : (exists k, forall j c, nsteps (step act) j s c -> j <= k) -> exists c, rtc (step act) s c /\ final act c.
Proof.
  intros [k Hk]. revert s Hk. induction k as [|k IH]; intros s Hk.
  - destruct (step_or_final s) as [[c' Hc']|Hf]; [|by exists s]. specialize (Hk 1 c' ltac:(by apply nsteps_once)). lia.
  - destruct (step_or_final s) as [[c' Hc']|Hf]; [|by exists s].
    destruct (IH c') as (c & Hc & Hf). { intros j c Hj. specialize (Hk (S j) c ltac:(by eapply nsteps_l)). lia. }
    exists c. split; [by eapply rtc_l|exact Hf].
Qed.
End NetFinal.
