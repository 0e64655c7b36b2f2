(** * Calls that return everything at once: proofs for C97 *)
From Verif.Model Require Import Base GoStrings IncBlame LogParser ParentsGraph Process Msgp Checkpoint CheckpointFS Net Pipeline GetAll.
From Verif.Spec Require Import Collecting.
From Verif.Proofs Require Import NetProofs PipelineProofs.
From Coq Require Import Lia.

Section Gen.
Context {Ch V L : Type} `{Countable Ch} (act : L -> action Ch V L).
Lemma stop_step c c' l : step act c c' -> l ∈ locals c -> act l = Stop -> l ∈ locals c'.
Proof.
  intros Hs Hl Ha. apply elem_of_list_lookup in Hl as [a Hl].
  destruct Hs as [ls cl i j l1 l2 ch v k kr Hi Ai Hj Aj Hc|ls cl j l1 ch kr Hj Aj Hc|ls cl i l1 ch k Hi Ai Hc]; cbn [locals] in *; apply (elem_of_list_lookup_2 _ a).
  - rewrite !list_lookup_insert_ne; [done| |]; intros ->; congruence.
  - rewrite list_lookup_insert_ne; [done|]; intros ->; congruence.
  - rewrite list_lookup_insert_ne; [done|]; intros ->; congruence.
Qed.
(** A goroutine that has returned stays so. *)
Lemma stop_stays c c' l : rtc (step act) c c' -> l ∈ locals c -> act l = Stop -> l ∈ locals c'.
Proof. induction 1 as [|x y z Hxy _ IH]; [done|]. intros Hl Ha. apply IH; [by eapply stop_step|done]. Qed.
Context (owns reads : L -> Ch -> Prop) (gives : Ch -> Ch -> Prop) (D : disciplined act owns reads gives).
Lemma exclusive_rtc c c' : exclusive owns reads c -> rtc (step act) c c' -> exclusive owns reads c'.
Proof. intros HE. induction 1 as [|x y z Hxy _ IH]; [done|]. apply IH. by eapply exclusive_step. Qed.
Lemma crash_to c c' : exclusive owns reads c -> rtc (step act) c c' -> crashing act c -> crashing act c'.
Proof. intros HE. induction 1 as [|x y z Hxy _ IH]; [done|]. intros Hc. apply IH; [by eapply exclusive_step|by eapply panic_stays]. Qed.
End Gen.

Section Collect.
Context {V A : Type} (put : A -> V -> A) (a0 : A) (xs : list V) (oc : outcome unit) (slice : bool).
Notation act := (c_act put a0 xs oc slice).
Notation step := (step act).
Notation clocal := (@clocal V A).
Notation config := (config chan clocal).

Definition c_owned (l : clocal) : list nat :=
  match l with
  | CStart => [0; 1; 2]
  | CSend _ => if slice then [0] else [0; 1]
  | CEnded => if slice then [] else [1]
  | CLoop _ => if slice then [1] else []
  | CSendGot _ => [1]
  | _ => []
  end.
(** The goroutine that receives the results reads channel 0; the call reads channel 1. *)
Definition c_readable (l : clocal) : list nat :=
  match l with
  | CStart => if slice then [1] else [0; 1]
  | CSend _ | CEnded => if slice then [1] else []
  | CIdle => if slice then [0; 2] else [2]
  | CLoop _ => if slice then [0] else [0; 1]
  | CWaitEnd _ => [1]
  | _ => []
  end.
Definition c_given (c : nat) : list nat := match c with 2 => if slice then [1] else [0; 1] | _ => [] end.
Definition c_owns (l : clocal) (c : chan) : Prop := c.1 ∈ c_owned l.
Definition c_reads (l : clocal) (c : chan) : Prop := c.1 ∈ c_readable l.
Definition c_gives (c d : chan) : Prop := d.1 ∈ c_given c.1.

Ltac unpack := apply (bool_decide_unpack _); vm_compute; exact I.
Lemma collect_disciplined : disciplined act c_owns c_reads c_gives.
Proof.
  split.
  - intros l c v k E. unfold c_owns, c_reads, c_gives. destruct l as [|[|x l]| | |a|a|a|a oc'| |]; unfold c_owned, c_readable, c_given; cbn [c_act] in E;
      try destruct oc; try destruct slice; try discriminate E; injection E as <- <- <-;
      (split; [unpack|]); (split; [intros d; apply incl_dec; reflexivity|]); (split; [intros d; apply minus_dec; reflexivity|]); intros d; apply incl_dec; reflexivity.
  - intros l c kr E. unfold c_owns, c_reads, c_gives. destruct l as [|[|x l]| | |a|a|a|a oc'| |]; unfold c_owned, c_readable, c_given; cbn [c_act] in E;
      try destruct oc; try destruct slice; try discriminate E; injection E as <- <-;
      (split; [unpack|]); (split; [intros [] d; apply plus_dec; reflexivity|]); (split; [intros d; apply incl_dec; reflexivity|]); intros [[]|] d; apply incl_dec; reflexivity.
  - intros l c k E. unfold c_owns, c_reads. destruct l as [|[|x l]| | |a|a|a|a oc'| |]; unfold c_owned, c_readable; cbn [c_act] in E;
      try destruct oc; try destruct slice; try discriminate E; injection E as <- <-;
      (split; [unpack|]); (split; [intros d; apply incl_dec; reflexivity|]); intros d; apply incl_dec; reflexivity.
Qed.
Lemma collect_exclusive : exclusive c_owns c_reads (collect_call : config).
Proof.
  intros i j l l' Hij Hi Hj. unfold c_owns, c_reads, c_owned, c_readable. destruct i as [|[|i]], j as [|[|j]]; try done; cbn in Hi, Hj; injection Hi as <-; injection Hj as <-; destruct slice;
    (split; intros d H1 H2; rewrite ?elem_of_cons, elem_of_nil in H1; rewrite ?elem_of_cons, elem_of_nil in H2; lia).
Qed.
End Collect.

Ltac ccomm act i j := (eapply rtc_l; [refine (step_comm act _ _ i j _ _ _ _ _ _ _ _ _ _ _); [reflexivity|reflexivity|reflexivity|reflexivity|]|]; cbn [insert list_insert]).
Ltac ceof act j := (eapply rtc_l; [refine (step_eof act _ _ j _ _ _ _ _ _); [reflexivity|reflexivity|]|]; cbn [insert list_insert]).
Ltac cclos act i := (eapply rtc_l; [refine (step_close act _ _ i _ _ _ _ _ _); [reflexivity|reflexivity|]|]; cbn [insert list_insert]).

Section Ends.
Context {V A : Type} (put : A -> V -> A) (a0 : A) (xs : list V) (oc : outcome unit).
Notation act s := (c_act put a0 xs oc s).
Notation got := (fold_left put xs a0).

Lemma sends_slice l a : rtc (step (act true)) (Config [CSend l; CLoop a] ∅) (Config [CEnded; CSendGot (fold_left put l a)] {[ g_res ]}).
Proof.
  revert a. induction l as [|x l IH]; intros a.
  - cclos (act true) 0; [set_solver|]. ceof (act true) 1; [set_solver|]. cbn [fold_left]. rewrite union_empty_r_L. apply rtc_refl.
  - ccomm (act true) 0 1; [set_solver|]. apply IH.
Qed.
Lemma sends_get l a : rtc (step (act false)) (Config [CLoop a; CSend l] ∅) (Config [CWaitEnd (fold_left put l a); CEnded] {[ g_res ]}).
Proof.
  revert a. induction l as [|x l IH]; intros a.
  - cclos (act false) 1; [set_solver|]. ceof (act false) 0; [set_solver|]. cbn [fold_left]. rewrite union_empty_r_L. apply rtc_refl.
  - ccomm (act false) 1 0; [set_solver|]. apply IH.
Qed.
Lemma before_done s : rtc (step (act s)) collect_call
  (Config (if s then [CEnded; CSendGot got] else [CWaitEnd got; CEnded]) {[ g_res ]}).
Proof.
  unfold collect_call. destruct s.
  - ccomm (act true) 0 1; [set_solver|]. apply sends_slice.
  - ccomm (act false) 0 1; [set_solver|]. apply sends_get.
Qed.
Definition c_end (s : bool) : config chan (@clocal V A) := Config (if s then [CRet got oc; CStop] else [CRet got oc; CStop]) {[ g_res ]}.
Lemma reaches_end s : (forall m, oc <> Panic m) -> rtc (step (act s)) collect_call (c_end s).
Proof.
  intros Hp. eapply rtc_transitive; [apply before_done|]. unfold c_end.
  assert (Hd : g_done ∉ ({[ g_res ]} : gset chan)) by (rewrite elem_of_singleton; discriminate).
  destruct s.
  - eapply rtc_l; [|apply rtc_refl]. refine (step_comm (act true) [CEnded; CSendGot got] _ 1 0 (CSendGot got) CEnded g_done (CGot got) CStop (fun v => match v with Some (CGot a) => CRet a oc | _ => CBad end) eq_refl eq_refl eq_refl _ Hd).
    cbn [c_act]. destruct oc as [[]|m|m]; [reflexivity|reflexivity|by destruct (Hp m)].
  - eapply rtc_l; [|apply rtc_refl]. refine (step_comm (act false) [CWaitEnd got; CEnded] _ 1 0 CEnded (CWaitEnd got) g_done (CEnd oc) CStop (fun v => match v with Some (CEnd oc) => CRet got oc | _ => CBad end) eq_refl _ eq_refl eq_refl Hd).
    cbn [c_act]. destruct oc as [[]|m|m]; [reflexivity|reflexivity|by destruct (Hp m)].
Qed.
Lemma stop_final (ls : list (@clocal V A)) cs s : Forall goroutine_returned ls -> final (act s) (Config ls cs).
Proof.
  intros Hf c' Hs. rewrite Forall_lookup in Hf.
  inversion Hs as [ls' cl' i j l l' c v k kr Hi Ai Hj Aj Hc|ls' cl' j l c kr Hj Aj Hc|ls' cl' i l c k Hi Ai Hc]; subst; [apply Hf in Hi|apply Hf in Hj|apply Hf in Hi]; destruct l; done.
Qed.
Lemma not_crashing (ls : list (@clocal V A)) cs s : Forall goroutine_returned ls -> ~ crashing (act s) (Config ls cs).
Proof. intros Hf (l & Hl & Hp). rewrite Forall_forall in Hf. apply Hf in Hl. by destruct l. Qed.

Lemma collect_every s : (forall m, oc <> Panic m) ->
  (exists n, forall m c, nsteps (step (act s)) m collect_call c -> m <= n) /\
  forall c, rtc (step (act s)) collect_call c ->
    ~ crashing (act s) c /\ (forall r, collected c r -> r = (got, oc)) /\ (final (act s) c -> all_returned c /\ collected c (got, oc)).
Proof.
  intros Hp. pose proof (collect_disciplined put a0 xs oc s) as HD. pose proof (collect_exclusive (V := V) (A := A) s) as HE. pose proof (reaches_end s Hp) as HR.
  assert (Hret : Forall goroutine_returned (locals (c_end s))) by (destruct s; by repeat constructor).
  assert (Hf : final (act s) (c_end s)) by (by apply stop_final).
  split.
  { apply rtc_nsteps in HR as [n Hn]. exists n. intros m c Hm. exact (proj1 (schedules_agree (act s) _ _ _ HD n _ _ HE Hn Hf m c Hm)). }
  intros c Hc. destruct (ends_the_same (act s) _ _ _ HD _ _ _ HE HR Hf Hc) as [Hcf Heq]. split; [|split].
  - intros Hcr. apply (not_crashing (if s then [CRet got oc; CStop] else [CRet got oc; CStop]) {[ g_res ]} s); [destruct s; by repeat constructor|].
    eapply crash_to; [exact HD|eapply exclusive_rtc; [exact HD|exact HE|exact Hc]|exact Hcf|exact Hcr].
  - intros [a oc'] Hr. pose proof (stop_stays (act s) _ _ _ Hcf Hr ltac:(done)) as Hr'. cbn [c_end locals fst snd] in Hr'.
    destruct s; rewrite !elem_of_cons, elem_of_nil in Hr'; destruct Hr' as [Hr'|[Hr'|[]]]; try discriminate Hr'; by injection Hr' as -> ->.
  - intros Hfc. rewrite (Heq Hfc). split; [done|]. unfold collected, c_end. destruct s; by left.
Qed.
Lemma collect_panic s m : oc = Panic m -> forall c, rtc (step (act s)) collect_call c -> (forall r, ~ collected c r) /\ (final (act s) c -> crashing (act s) c).
Proof.
  intros Hp c Hc. pose proof (collect_disciplined put a0 xs oc s) as HD. pose proof (collect_exclusive (V := V) (A := A) s) as HE. pose proof (before_done s) as HR.
  assert (Hf : final (act s) (Config (if s then [CEnded; CSendGot got] else [CWaitEnd got; CEnded]) {[ g_res ]})).
  { intros c' Hs. assert (HnE : act s CEnded = Crash) by (cbn [c_act]; by rewrite Hp).
    assert (Hact : forall i l, (if s then [CEnded; CSendGot got] else [CWaitEnd got; CEnded]) !! i = Some l -> act s l = Crash \/ (s = true /\ exists k, act s l = Send g_done (CGot got) k) \/ (s = false /\ exists k, act s l = Recv g_done k)).
    { intros i l Hl. destruct s; destruct i as [|[|i]]; try discriminate Hl; injection Hl as <-; [by left|right; left|right; right|by left]; (split; [done|]); by eexists. }
    inversion Hs as [ls' cl' i j l l' ch v k kr Hi Ai Hj Aj Hch|ls' cl' j l ch kr Hj Aj Hch|ls' cl' i l ch k Hi Ai Hch]; subst.
    - apply Hact in Hi as [E|[(Es1 & k1 & E)|(Es1 & k1 & E)]]; rewrite Ai in E; try discriminate E.
      apply Hact in Hj as [E'|[(_ & k2 & E')|(Es & k2 & E')]]; rewrite Aj in E'; try discriminate E'. rewrite Es1 in Es. discriminate Es.
    - apply Hact in Hj as [E|[(_ & k1 & E)|(-> & k1 & E)]]; rewrite Aj in E; try discriminate E. injection E as -> _. rewrite elem_of_singleton in Hch. discriminate Hch.
    - apply Hact in Hi as [E|[(_ & k1 & E)|(-> & k1 & E)]]; rewrite Ai in E; discriminate E. }
  destruct (ends_the_same (act s) _ _ _ HD _ _ _ HE HR Hf Hc) as [Hcf Heq]. split.
  - intros [a oc'] Hr. pose proof (stop_stays (act s) _ _ _ Hcf Hr ltac:(done)) as Hr'. cbn [locals fst snd] in Hr'.
    destruct s; rewrite !elem_of_cons, elem_of_nil in Hr'; destruct Hr' as [Hr'|[Hr'|[]]]; discriminate Hr'.
  - intros Hfc. rewrite (Heq Hfc). exists CEnded. split; [destruct s; cbn [locals]; rewrite !elem_of_cons; auto|]. unfold panics. cbn [c_act]. by rewrite Hp.
Qed.
End Ends.
Lemma fold_append {V} (xs : list V) : fold_left (fun l x => l ++ [x]) xs [] = xs.
Proof.
  assert (H : forall l, fold_left (fun l x => l ++ [x]) xs l = l ++ xs) by (induction xs as [|x xs IH]; intros l; [by rewrite app_nil_r|cbn [fold_left]; rewrite IH, <- app_assoc; done]).
  apply (H []).
Qed.
