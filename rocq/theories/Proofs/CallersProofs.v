(** * Callers of CodeByCommit and of Code that do not read everything: proofs for C71 and C72 *)
From Verif.Model Require Import Base GoStrings IncBlame LogParser ParentsGraph Process Msgp Checkpoint CheckpointFS CommitMeta FileInfo CodeInfo Net Pipeline Callers.
From Verif.Spec Require Import Delivery Callers.
From Verif.Proofs Require Import NetProofs PipelineProofs PipelineMore PipelineCrash Sink.
From Coq Require Import Lia.

Section Gen.
Context {Ch V L : Type} `{Countable Ch} (act : L -> action Ch V L).
Lemma slot_step (c c' : config Ch L) i l : step act c c' -> locals c !! i = Some l ->
  locals c' !! i = Some l \/
  (exists ch v k, act l = Send ch v k /\ locals c' !! i = Some k /\ closed c' = closed c /\ exists j l' kr, locals c !! j = Some l' /\ act l' = Recv ch kr) \/
  (exists ch kr v, act l = Recv ch kr /\ locals c' !! i = Some (kr v) /\ closed c' = closed c /\ match v with None => ch ∈ closed c | Some v => exists j l' k, locals c !! j = Some l' /\ act l' = Send ch v k end) \/
  (exists ch k, act l = Close ch k /\ locals c' !! i = Some k).
Proof.
  intros Hs Hi. destruct Hs as [ls cl0 a j l1 l2 ch v k kr Ha Aa Hj Aj Hc|ls cl0 j l1 ch kr Hj Aj Hc|ls cl0 a l1 ch k Ha Aa Hc]; cbn [locals closed] in *.
  - assert (a <> j) by (intros ->; rewrite Ha in Hj; injection Hj as ->; rewrite Aa in Aj; discriminate).
    destruct (decide (i = a)) as [->|Hia]; [right; left|destruct (decide (i = j)) as [->|Hij]; [right; right; left|left; by rewrite !list_lookup_insert_ne]].
    + rewrite Hi in Ha. injection Ha as <-. exists ch, v, k. split; [done|]. split; [rewrite list_lookup_insert; [done|rewrite insert_length; by eapply lookup_lt_Some]|]. split; [done|]. by exists j, l2, kr.
    + rewrite Hi in Hj. injection Hj as <-. exists ch, kr, (Some v). split; [done|]. split; [rewrite list_lookup_insert_ne by done; rewrite list_lookup_insert; [done|by eapply lookup_lt_Some]|]. split; [done|]. by exists a, l1, k.
  - destruct (decide (i = j)) as [->|Hij]; [right; right; left|left; by rewrite list_lookup_insert_ne].
    rewrite Hi in Hj. injection Hj as <-. exists ch, kr, None. split; [done|]. split; [rewrite list_lookup_insert; [done|by eapply lookup_lt_Some]|]. done.
  - destruct (decide (i = a)) as [->|Hij]; [right; right; right|left; by rewrite list_lookup_insert_ne].
    rewrite Hi in Ha. injection Ha as <-. exists ch, k. split; [done|]. rewrite list_lookup_insert; [done|by eapply lookup_lt_Some].
Qed.
Lemma closed_step (c c' : config Ch L) ch : step act c c' -> ch ∈ closed c' -> ch ∈ closed c \/ exists i l k, locals c !! i = Some l /\ act l = Close ch k.
Proof.
  intros Hs. destruct Hs as [ls cl0 a j l1 l2 ch' v k kr Ha Aa Hj Aj Hc|ls cl0 j l1 ch' kr Hj Aj Hc|ls cl0 a l1 ch' k Ha Aa Hc]; cbn [locals closed]; [by left..|].
  rewrite elem_of_union, elem_of_singleton. intros [->|Hx]; [right; by exists a, l1, k|by left].
Qed.

End Gen.

Section Callers.
Context {T L : Type} (zt : T) (cl : classifiers L).
Context (count : bytes -> bytes -> bytes -> list (Z * line_type) * totals) (meta : gmap bytes (mcommit T)).
Context (orders : nat -> list (bytes * blame) -> list (bytes * blame)) (cache0 : gmap bytes bytes).
Context (skip : bytes -> pres unit) (e : env) (o : popts) (disk : fs) (text : bytes) (prep_err log_err write_err : option bytes).
Context (want : nat -> mcommit T -> option nat) (quit : option nat) (limit : nat).
Notation record := (bresult T L).
Notation gotten := (list (mcommit T * list record)).
Notation clocal := (@clocal T L).
Notation act := (act zt cl count meta orders cache0 skip e o disk text prep_err log_err write_err).
Notation bc_act := (by_commit_act zt cl count meta orders cache0 skip e o disk text prep_err log_err write_err want quit limit).
Notation cq_act := (code_act zt cl count meta orders cache0 skip e o disk text prep_err log_err write_err want quit limit).
Notation goes := (goes zt cl count meta orders).

(** ** Ownership *)
Definition owns' (l : clocal) (c : chan) : Prop := match l with BL l => owns l c | _ => False end.
Definition reads' (l : clocal) (c : chan) : Prop := match l with BL l => reads l c | BC _ => c.1 ∈ [4; 5] | BQ _ => c.1 ∈ [7] | BR _ => False end.

Lemma lift_disciplined (act' : clocal -> action chan (@value T L) clocal) :
  (forall l, act' (BL l) = lift_act (act l) \/ exists oc w, l = LM (MCloseRes2 oc w) /\ act' (BL l) = Close c_res2 (BL (LM (MStop oc w)))) ->
  (forall c, act' (BC c) = c_act want quit c) -> (forall q, act' (BQ q) = q_act limit q) -> (forall r, act' (BR r) = Stop) -> disciplined act' owns' reads' gives.
Proof.
  intros HL HC HQ HR. pose proof (pipe_disciplined zt cl count meta orders cache0 skip e o disk text prep_err log_err write_err) as [D1 D2 D3].
  split.
  - intros [l|c|q|rr] ch v k A.
    + destruct (HL l) as [E|(oc & w & -> & E)]; rewrite E in A; [|discriminate A]. destruct (act l) as [ch' v' k'|ch' k'|ch' k'| |] eqn:Al; try discriminate A. injection A as <- <- <-.
      exact (D1 _ _ _ _ Al).
    + rewrite HC in A. destruct c; discriminate A.
    + rewrite HQ in A. destruct q; discriminate A.
    + rewrite HR in A. discriminate A.
  - intros [l|c|q|rr] ch kr A.
    + destruct (HL l) as [E|(oc & w & -> & E)]; rewrite E in A; [|discriminate A]. destruct (act l) as [ch' v' k'|ch' k'|ch' k'| |] eqn:Al; try discriminate A. injection A as <- <-.
      exact (D2 _ _ _ Al).
    + rewrite HC in A. assert (Hno : forall d v, ~ owns' (kr v) d).
      { intros d v. destruct c as [g|n k c rs g|g|g]; try discriminate A; injection A as <- <-; destruct v as [[]|]; cbn; try (intros Hx; exact Hx); intros Hx; by apply elem_of_nil in Hx. }
      assert (Hre : forall d v, reads' (kr v) d -> reads' (BC c) d).
      { intros d v. destruct c as [g|n k c rs g|g|g]; try discriminate A; injection A as <- <-; destruct v as [[]|]; cbn; try (intros Hx; exact Hx); intros Hx; by apply elem_of_nil in Hx. }
      split; [destruct c; try discriminate A; injection A as <- _; cbn [reads']; apply (bool_decide_unpack _); vm_compute; exact I|].
      split; [intros v d Hd; by apply Hno in Hd|]. split; [intros d Hd; by apply Hno in Hd|]. intros v d. apply Hre.
    + rewrite HQ in A. assert (Hno : forall d v, ~ owns' (kr v) d).
      { intros d v. destruct q as [g|g|g]; try discriminate A; injection A as <- <-; destruct v as [[]|]; cbn; try (intros Hx; exact Hx); intros Hx; by apply elem_of_nil in Hx. }
      assert (Hre : forall d v, reads' (kr v) d -> reads' (BQ q) d).
      { intros d v. destruct q as [g|g|g]; try discriminate A; injection A as <- <-; destruct v as [[]|]; cbn; try (intros Hx; exact Hx); intros Hx; by apply elem_of_nil in Hx. }
      split; [destruct q; try discriminate A; injection A as <- _; cbn [reads']; apply (bool_decide_unpack _); vm_compute; exact I|].
      split; [intros v d Hd; by apply Hno in Hd|]. split; [intros d Hd; by apply Hno in Hd|]. intros v d. apply Hre.
    + rewrite HR in A. discriminate A.
  - intros [l|c|q|rr] ch k A.
    + destruct (HL l) as [E|(oc & w & -> & E)]; rewrite E in A.
      * destruct (act l) as [ch' v' k'|ch' k'|ch' k'| |] eqn:Al; try discriminate A. injection A as <- <-. exact (D3 _ _ _ Al).
      * injection A as <- <-. split; [unfold owns', owns; apply (bool_decide_unpack _); vm_compute; exact I|]. split; [intros d Hd; by apply elem_of_nil in Hd|intros d Hd; exact Hd].
    + rewrite HC in A. destruct c; discriminate A.
    + rewrite HQ in A. destruct q; discriminate A.
    + rewrite HR in A. discriminate A.
Qed.
Lemma bc_disciplined : disciplined bc_act owns' reads' gives.
Proof.
  apply lift_disciplined; [|done..]. intros l. destruct l as [m|p|w|f|u|]; try (by left). destruct m; try (by left). right. by eexists _, _.
Qed.
Lemma cq_disciplined : disciplined cq_act owns' reads' gives.
Proof. apply lift_disciplined; [|done..]. intros l. by left. Qed.

Notation bc_call := (by_commit_call (T := T) (L := L) prep_err quit).
Notation cq_call := (quitting_call (T := T) (L := L) limit).
Lemma bc_exclusive : exclusive owns' reads' bc_call.
Proof.
  unfold by_commit_call, c_again. intros i j l l' Hij Hi Hj. unfold owns', reads', owns, reads.
  destruct i as [|[|[|[|i]]]]; destruct j as [|[|[|[|j]]]]; try done; cbn in Hi, Hj; injection Hi as <-; injection Hj as <-;
    (split; intros d Hd Hd'; destruct prep_err; try (exact Hd); try (exact Hd'); cbn in Hd, Hd'; rewrite ?elem_of_cons, elem_of_nil in Hd; rewrite ?elem_of_cons, elem_of_nil in Hd'; lia).
Qed.
Lemma cq_exclusive : exclusive owns' reads' cq_call.
Proof.
  unfold quitting_call, q_again. intros i j l l' Hij Hi Hj. unfold owns', reads', owns, reads.
  destruct i as [|[|[|[|[|i]]]]]; destruct j as [|[|[|[|[|j]]]]]; try done; cbn in Hi, Hj; injection Hi as <-; injection Hj as <-;
    (split; intros d Hd Hd'; try (exact Hd); try (exact Hd'); cbn in Hd, Hd'; rewrite ?elem_of_cons, elem_of_nil in Hd; rewrite ?elem_of_cons, elem_of_nil in Hd'; lia).
Qed.

(** ** CodeByCommit: one schedule *)
Notation bc_step := (step bc_act).
Definition c_tl (g : gotten) : list clocal := [BC (c_again quit g)].
Definition c_ok (g : gotten) (c : mcommit T) (x : list record) : Prop :=
  quit <> Some (length g) /\ match want (length g) c with Some k => length x <= k | None => True end.
Notation bcfg := (scfg c_tl).
Definition bcfg' (m : mstate) (p : pstate) (w : wstate) (s : cstate) (cs : gset chan) : config chan clocal := Config [BL (LM m); BL (LP p); BL (LW w); BC s] cs.
Ltac comm i j := (eapply rtc_l; [refine (step_comm _ _ _ i j _ _ _ _ _ _ _ _ _ _ _); [reflexivity|reflexivity|reflexivity|reflexivity|]|]; cbn [insert list_insert]).
Ltac eof j := (eapply rtc_l; [refine (step_eof _ _ _ j _ _ _ _ _ _); [reflexivity|reflexivity|]|]; cbn [insert list_insert]).
Ltac clos i := (eapply rtc_l; [refine (step_close _ _ _ i _ _ _ _ _ _); [reflexivity|reflexivity|]|]; cbn [insert list_insert]).

Lemma read_all m p n x ca k c rs g cs : c_blames n ∉ cs -> match k with Some j => length x <= j | None => True end ->
  rtc bc_step (bcfg' m p (WBlames n x ca) (c_more quit n k c rs g) cs) (bcfg' m p (WLoop ca (S n)) (c_again quit (g ++ [(c, rs ++ x)])) ({[ c_blames n ]} ∪ cs)).
Proof.
  intros Hn. revert k rs. induction x as [|r x IH]; intros k rs Hk.
  - rewrite app_nil_r. unfold bcfg'. clos 2; [done|]. destruct k as [[|k]|]; cbn [c_more]; [apply rtc_refl| |]; (eof 3; [set_solver|]); apply rtc_refl.
  - replace (rs ++ r :: x) with ((rs ++ [r]) ++ x) by (by rewrite <- app_assoc).
    destruct k as [[|k]|]; cbn [length] in Hk; [lia| |]; cbn [c_more]; unfold bcfg' at 1; (comm 2 3; [done|]); apply IH; [cbn; lia|exact I].
Qed.
Lemma read_some m p n x ca j c rs g cs : c_blames n ∉ cs -> j <= length x ->
  rtc bc_step (bcfg' m p (WBlames n x ca) (c_more quit n (Some j) c rs g) cs) (bcfg' m p (WBlames n (drop j x) ca) (c_again quit (g ++ [(c, rs ++ take j x)])) cs).
Proof.
  intros Hn. revert j rs. induction x as [|r x IH]; intros j rs Hj.
  - cbn [length] in Hj. destruct j; [|lia]. rewrite app_nil_r. apply rtc_refl.
  - destruct j as [|j]; [rewrite app_nil_r; apply rtc_refl|]. cbn [take drop length] in *.
    replace (rs ++ r :: take j x) with ((rs ++ [r]) ++ take j x) by (by rewrite <- app_assoc).
    unfold bcfg' at 1. cbn [c_more]. comm 2 3; [done|]. apply IH. lia.
Qed.
Lemma bc_delivers : delivers bc_act c_tl c_ok.
Proof.
  intros m p c x ca g cs Hq [Hnq Hk]. unfold scfg, c_tl. unfold c_again at 1. rewrite decide_False by done. comm 2 3; [by eapply quiet_other|].
  eapply rtc_transitive; [exact (read_all m p (length g) x ca (want (length g) c) c [] g cs (quiet_blames _ _ Hq) Hk)|]. cbn [app]. apply rtc_refl.
Qed.
Lemma bc_HM m : (forall oc w, m <> MCloseRes2 oc w) -> bc_act (BL (LM m)) = lift_act (m_act skip e o disk prep_err log_err write_err m).
Proof. intros H. destruct m; try done. by destruct (H oc w). Qed.

Definition c_end (g : gotten) : cstate := if decide (quit = Some (length g)) then CGone g else CStop g.
Definition bc_closing (cs : gset chan) : gset chan := {[ c_res2 ]} ∪ ({[ c_gitres ]} ∪ cs).
Lemma bc_close_down oc w p ca n g cs : quiet n cs ->
  rtc bc_step (bcfg (MCloseGit oc w) p (WLoop ca n) g cs) (bcfg' (MStop oc w) p WStop (c_end g) (bc_closing cs)).
Proof.
  intros Hq. unfold scfg, c_tl. assert (Hn : forall c : chan, c.1 <> 0 -> c.1 <> 5 -> c ∉ cs) by (intros c H1 H2; by eapply quiet_other).
  clos 0; [by apply Hn|]. eof 2; [set_solver|]. comm 2 0; [rewrite elem_of_union, elem_of_singleton; intros [E|E]; [discriminate E|by apply Hn in E]|].
  clos 0; [rewrite elem_of_union, elem_of_singleton; intros [E|E]; [discriminate E|by apply Hn in E]|].
  unfold c_again, c_end. destruct (decide _); [apply rtc_refl|]. eof 3; [set_solver|]. apply rtc_refl.
Qed.
Lemma bc_close_run oc w po ca n g cs : quiet n cs ->
  rtc bc_step (bcfg (MWait oc w) (PDone po) (WLoop ca n) g cs) (bcfg' (MStop oc w) (p_end po) WStop (c_end g) (bc_closing cs)).
Proof.
  intros Hq. unfold scfg at 1. comm 1 0; [by eapply quiet_other|]. destruct po; cbn [p_end]; by apply (bc_close_down oc w _ ca n g cs).
Qed.

Lemma bc_start : prep_err = None -> log_err = None ->
  rtc bc_step bc_call (bcfg (MLoop None) (PSend (log_run text).1 (log_run text).2) (WLoop cache0 0) [] ∅).
Proof.
  intros Hp Hl. unfold by_commit_call, scfg, c_tl. replace (match prep_err with Some x => MCloseRes2 (Err x) None | None => MStartW end) with MStartW by (by rewrite Hp).
  comm 0 2; [set_solver|]. replace (match log_err with Some x => MCloseGit (Err x) None | None => MStartP end) with MStartP by (by rewrite Hl). comm 0 1; [set_solver|]. apply rtc_refl.
Qed.

Lemma bc_reaches_end out oc w ys : prep_err = None -> log_err = None ->
  run_top skip e o disk (log_run text).1 = (out, oc, w) -> (forall m, oc <> Panic m) -> commits_for zt cl count meta orders cache0 0 out ys -> reads_all want quit ys ->
  exists cs, c_res2 ∈ cs /\ rtc bc_step bc_call (bcfg' (MStop (with_write write_err oc w) w) (p_end (log_run text).2) WStop (c_end ys) cs).
Proof.
  intros Hp Hl Hrun Hnp Hcf Hall. pose proof (bc_start Hp Hl) as Hstart. clear Hp Hl. unfold run_top in Hrun.
  apply goes_iff in Hcf as [ce Hgo]. set (po := (log_run text).2) in *.
  destruct (log_run text).1 as [|c cs].
  - injection Hrun as <- <- <-. assert (ys = []) as -> by (by inversion Hgo). eexists. split; [|eapply rtc_transitive; [exact Hstart|]; eapply rtc_transitive; [apply (first_end zt cl count meta orders cache0 skip e o disk text prep_err log_err write_err bc_act bc_HM (fun _ => eq_refl) (fun _ => eq_refl) c_tl c_ok bc_delivers); set_solver|]].
    2: { cbn [on_end]. eapply (bc_close_run (Ret tt) None po cache0 0 []). by apply quiet_commits. }
    unfold bc_closing. set_solver.
  - assert (Hq0 : quiet 0 (∅ : gset chan)) by (intros x Hx; by apply elem_of_empty in Hx).
    destruct (init_checkpoints skip o disk) as [r|m|m] eqn:Ei.
    + destruct (process_log_out e (pst_init r) (c :: cs)) as [rs Hrs].
      assert (Hout : out = rs /\ exists oc', log_end write_err (process_log e (pst_init r) (c :: cs)) = MWait oc' w /\ oc' = with_write write_err oc w).
      { unfold log_end. destruct (process_log e (pst_init r) (c :: cs)) as [s' [[]|m|m]]; cbn [fst snd] in *.
        - cbn [after_sends]. destruct (decide (s_last s' = [])); injection Hrun as <- <- <-; (split; [by rewrite Hrs|]); [by edestruct Hnp|]. eexists. split; [reflexivity|].
          cbn [with_write]. by destruct write_err.
        - injection Hrun as <- <- <-. split; [by rewrite Hrs|]. eexists. split; [reflexivity|]. done.
        - injection Hrun as <- <- <-. by edestruct Hnp. }
      destruct Hout as [-> (oc' & Hle & ->)].
      destruct (run_sink zt cl count meta orders cache0 skip e o disk text prep_err log_err write_err bc_act bc_HM (fun _ => eq_refl) (fun _ => eq_refl) c_tl c_ok bc_delivers
        None (c :: cs) po (pst_init r) rs cache0 [] ∅ ys ce) as (p & ca & cl1 & HL & Hq & HR);
        [right; rewrite Ei; split; [done|split; done]|exact Hq0|set_solver|exact Hrs|exact Hgo|exact Hall|].
      unfold loop_ends in HL. rewrite Hle in HL, HR. subst p. eexists. split; [|eapply rtc_transitive; [exact Hstart|]; eapply rtc_transitive; [exact HR|]; by apply bc_close_run].
      unfold bc_closing. set_solver.
    + injection Hrun as <- <- <-. assert (ys = []) as -> by (by inversion Hgo).
      destruct (drain_sink zt cl count meta orders cache0 skip e o disk text prep_err log_err write_err bc_act bc_HM (fun _ => eq_refl) (fun _ => eq_refl) c_tl c_ok bc_delivers m cs po (WLoop cache0 0) [] ∅ 0 Hq0) as (cl1 & Hq1 & HDr); [set_solver|].
      eexists. split; [|eapply rtc_transitive; [exact Hstart|]; eapply rtc_transitive; [apply (first_commit skip e o disk text prep_err log_err write_err bc_act bc_HM (fun _ => eq_refl) c_tl); set_solver|]; unfold on_commit; rewrite Ei; cbn [omap_o obind];
        eapply rtc_transitive; [exact HDr|]; by apply bc_close_run].
      unfold bc_closing. set_solver.
    + injection Hrun as <- <- <-. by edestruct Hnp.
Qed.

(** ** What the caller has only grows *)
Lemma part_refl (g : gotten) : part_of g g.
Proof. destruct g as [|[c x] g] using rev_ind; [by left|]. right. exists g, c, x, x, []. done. Qed.
Lemma part_app (g h : gotten) : part_of g (g ++ h).
Proof. destruct g as [|[c x] g _] using rev_ind; [by left|]. right. exists g, c, x, x, h. by rewrite <- app_assoc. Qed.
Lemma part_more (g : gotten) c rs r : part_of (g ++ [(c, rs)]) (g ++ [(c, rs ++ [r])]).
Proof. right. exists g, c, rs, (rs ++ [r]), []. split; [done|]. split; [by eexists|done]. Qed.
Lemma part_trans (a b d : gotten) : part_of a b -> part_of b d -> part_of a d.
Proof.
  intros [->|(p1 & c1 & r1 & r1' & q1 & -> & Hr1 & ->)] H2; [by left|]. right. destruct H2 as [E|(p2 & c2 & r2 & r2' & q2 & E & Hr2 & ->)]; [by destruct p1|].
  destruct q1 as [|y q1 _] using rev_ind.
  - apply app_inj_tail in E as [<- E]. injection E as <- <-. exists p1, c1, r1, r2', q2. split; [done|]. split; [by etransitivity|done].
  - change (p1 ++ (c1, r1') :: q1 ++ [y]) with (p1 ++ ((c1, r1') :: q1) ++ [y]) in E. rewrite app_assoc in E. apply app_inj_tail in E as [<- _].
    exists p1, c1, r1, r1', (q1 ++ (c2, r2') :: q2). split; [done|]. split; [done|]. by rewrite <- app_assoc.
Qed.

Definition seen (s : cstate) : gotten := match s with CLoop g | CStop g | CGone g => g | CRecs _ _ c rs g => g ++ [(c, rs)] end.
Lemma seen_again g : seen (c_again quit g) = g.
Proof. unfold c_again. by destruct (decide _). Qed.
Lemma seen_more n k c rs g : seen (c_more quit n k c rs g) = g ++ [(c, rs)].
Proof. unfold c_more. destruct k as [[|k]|]; [apply seen_again|done..]. Qed.

Lemma caller_step c c' s : bc_step c c' -> locals c !! 3 = Some (BC s) ->
  (exists s', locals c' !! 3 = Some (BC s') /\ part_of (seen s) (seen s')) \/ locals c' !! 3 = Some (BL LBad).
Proof.
  intros Hs Hi. destruct (slot_step _ c c' 3 (BC s) Hs Hi) as [E|[(ch & v & k & A & _)|[(ch & kr & v & A & E & _)|(ch & k & A & _)]]].
  - left. exists s. split; [done|apply part_refl].
  - destruct s; discriminate A.
  - destruct s as [g|n k c0 rs g|g|g]; try discriminate A; injection A as <- <-.
    + destruct v as [[| | |c1 n1|]|]; try (by right); left; (eexists; split; [exact E|]); [rewrite seen_more; apply part_app|apply part_refl].
    + destruct v as [[| | | |r]|]; try (by right); left; (eexists; split; [exact E|]); [rewrite seen_more; apply part_more|rewrite seen_again; apply part_refl].
  - destruct s; discriminate A.
Qed.
Lemma caller_steps c c' s : rtc bc_step c c' -> locals c !! 3 = Some (BC s) ->
  (exists s', locals c' !! 3 = Some (BC s') /\ part_of (seen s) (seen s')) \/ locals c' !! 3 = Some (BL LBad).
Proof.
  intros Hs. revert s. induction Hs as [c|c c1 c' H1 Hr IH]; intros s Hi; [left; exists s; split; [done|apply part_refl]|].
  destruct (caller_step c c1 s H1 Hi) as [(s1 & E1 & P1)|E1].
  - destruct (IH s1 E1) as [(s' & E' & P')|E']; [left; exists s'; split; [done|by eapply part_trans]|by right].
  - right. clear IH H1 Hi. induction Hr as [|c1 c2 c' H2 _ IH]; [done|]. apply IH.
    destruct (slot_step _ c1 c2 3 (BL LBad) H2 E1) as [E|[(ch & v & k & A & _)|[(ch & kr & v & A & E & _)|(ch & k & A & _)]]]; [done|discriminate A..].
Qed.
Lemma seen_received c s : locals c !! 3 = Some (BC s) -> commits_received c = seen s.
Proof. intros E. unfold commits_received. rewrite E. by destruct s. Qed.
(** If the caller gets to [g], what it has received at any time before is part of [g]. *)
Lemma received_part c f s : rtc bc_step bc_call c -> rtc bc_step c f -> locals f !! 3 = Some (BC s) -> part_of (commits_received c) (seen s).
Proof.
  intros Hc Hcf Hf. destruct (caller_steps _ _ (c_again quit []) Hc eq_refl) as [(s1 & E1 & _)|E1].
  - rewrite (seen_received c s1 E1). destruct (caller_steps _ _ s1 Hcf E1) as [(s2 & E2 & P)|E2]; rewrite Hf in E2; [|discriminate E2]. by injection E2 as <-.
  - unfold commits_received. rewrite E1. by left.
Qed.

(** ** Every schedule, if everything is read *)
Lemma bc_final oc w s cs : (exists g, s = CStop g \/ s = CGone g) -> final bc_act (bcfg' (MStop oc w) PStop WStop s cs).
Proof.
  intros [g Hg] c' Hs. unfold bcfg' in Hs. assert (Hstop : forall i l, [BL (LM (MStop oc w)); BL (LP PStop); BL (LW WStop); BC s] !! i = Some l -> bc_act l = Stop).
  { intros [|[|[|[|i]]]] l E; try discriminate E; injection E as <-; try reflexivity. by destruct Hg as [->| ->]. }
  inversion Hs as [ls cl' i j l l' c v k kr Hi Ai Hj Aj Hc|ls cl' j l c kr Hj Aj Hc|ls cl' i l c k Hi Ai Hc]; subst.
  - apply Hstop in Hi. congruence.
  - apply Hstop in Hj. congruence.
  - apply Hstop in Hi. congruence.
Qed.

Lemma exclusive_along c c' : exclusive owns' reads' c -> rtc bc_step c c' -> exclusive owns' reads' c'.
Proof. intros HE Hs. induction Hs as [|c c1 c' H1 _ IH]; [done|]. apply IH. eapply exclusive_step; [apply bc_disciplined|exact HE|exact H1]. Qed.

Lemma bc_every_schedule out oc w ys : prep_err = None -> log_err = None -> (log_run text).2 = Ret tt ->
  run_top skip e o disk (log_run text).1 = (out, oc, w) -> (forall m, oc <> Panic m) -> commits_for zt cl count meta orders cache0 0 out ys -> reads_all want quit ys ->
  (exists n, forall m c, nsteps bc_step m bc_call c -> m <= n) /\
  forall c, rtc bc_step bc_call c ->
    ~ crashing bc_act c /\ part_of (commits_received c) ys /\
    (final bc_act c -> all_done c /\ commits_received c = ys /\ c_res2 ∈ closed c /\ call_returned c = Some (with_write write_err oc w, w)).
Proof.
  intros Hp Hl Hpo Hrun Hnp Hcf Hall. destruct (bc_reaches_end out oc w ys Hp Hl Hrun Hnp Hcf Hall) as (cs & Hcs & Hreach). rewrite Hpo in Hreach. cbn [p_end] in Hreach.
  assert (Hce : exists g, c_end ys = CStop g \/ c_end ys = CGone g) by (exists ys; unfold c_end; destruct (decide _); auto).
  assert (Hsn : seen (c_end ys) = ys) by (unfold c_end; by destruct (decide _)).
  pose proof (bc_final (with_write write_err oc w) w (c_end ys) cs Hce) as Hfin.
  split.
  - apply rtc_nsteps in Hreach as [n Hn]. exists n. intros m c Hm. eapply (schedules_agree bc_act owns' reads' gives); [apply bc_disciplined|apply bc_exclusive|exact Hn|exact Hfin|exact Hm].
  - intros c Hc. destruct (ends_the_same bc_act owns' reads' gives bc_disciplined _ _ c bc_exclusive Hreach Hfin Hc) as [Hcf' Heq]. split; [|split].
    + intros Hcr. assert (Hbad : crashing bc_act (bcfg' (MStop (with_write write_err oc w) w) PStop WStop (c_end ys) cs)).
      { pose proof (exclusive_along _ _ bc_exclusive Hc) as HE. revert Hcf' HE Hcr. generalize (bcfg' (MStop (with_write write_err oc w) w) PStop WStop (c_end ys) cs). clear.
        intros f Hcf. induction Hcf as [|x y z Hxy _ IH]; intros HE Hcr; [done|]. apply IH; [eapply exclusive_step; [apply bc_disciplined|exact HE|exact Hxy]|].
        eapply (panic_stays bc_act owns' reads'); [apply bc_disciplined|exact HE|exact Hxy|exact Hcr]. }
      destruct Hbad as (l & Hin & Hpan). unfold bcfg' in Hin. cbn [locals] in Hin. unfold panics in Hpan.
      rewrite !elem_of_cons, elem_of_nil in Hin. destruct Hin as [->|[->|[->|[->|[]]]]]; try exact Hpan. destruct Hce as [g [E|E]]; rewrite E in Hpan; exact Hpan.
    + rewrite <- Hsn. eapply received_part; [exact Hc|exact Hcf'|reflexivity].
    + intros Hfc. rewrite (Heq Hfc). split; [|split; [|split; [done|done]]].
      * unfold all_done, bcfg'. cbn [locals]. do 3 (constructor; [exact I|]). constructor; [|constructor]. destruct Hce as [g [->| ->]]; exact I.
      * erewrite seen_received; [exact Hsn|reflexivity].
Qed.

(** ** If not everything is read *)
Definition stuck (w : @wstate T L) (s : @cstate T L) : Prop :=
  match w with
  | WBlames _ (_ :: _) _ => match s with CLoop _ | CGone _ => True | _ => False end
  | WRes _ _ _ _ => match s with CGone _ => True | _ => False end
  | _ => False
  end.
Definition main_before (l : clocal) : Prop := match l with BL (LM m) => before_done m | BL LBad => True | _ => False end.
Record is_stuck (w : @wstate T L) (s : @cstate T L) (c : config chan clocal) : Prop := IsStuck {
  st_excl : exclusive owns' reads' c;
  st_w : locals c !! 2 = Some (BL (LW w));
  st_c : locals c !! 3 = Some (BC s);
  st_open : c_res2 ∉ closed c /\ c_done2 ∉ closed c;
  st_main : exists l, locals c !! 0 = Some l /\ main_before l }.

Lemma own_worker w s d : stuck w s -> d.1 ∈ [3; 4; 5] -> owns' (BL (LW w)) d.
Proof. unfold owns', owns. destruct w as [| |? ? ? ?|? [|? ?] ?| | |]; try done. Qed.
Lemma worker_send w s : stuck w s -> exists ch v k, bc_act (BL (LW w)) = Send ch v k /\ (ch = c_res2 /\ (exists g, s = CGone g) \/ exists n, ch = c_blames n).
Proof.
  destruct w as [| |c n rs ca|n [|r rs] ca| | |]; try done; intros Hs.
  - eexists _, _, _. split; [reflexivity|]. left. split; [done|]. destruct s; try done. by eexists.
  - eexists _, _, _. split; [reflexivity|]. right. by eexists.
Qed.

Lemma stuck_step w s c c' : stuck w s -> is_stuck w s c -> bc_step c c' -> is_stuck w s c'.
Proof.
  intros Hst [HE Hw Hc [Ho1 Ho2] (l0 & H0 & Hm)] Hs. pose proof bc_disciplined as D.
  destruct (worker_send w s Hst) as (ch & v & k & Aw & Hch).
  assert (Hsend : forall i l d v' k', locals c !! i = Some l -> bc_act l = Send d v' k' -> d.1 ∈ [3; 4; 5] -> d = ch).
  { intros i l d v' k' Hi Ai Hd. assert (i = 2) as ->.
    { eapply (sender_unique owns' reads' c i 2 l (BL (LW w)) d HE Hi Hw); [by eapply (own_send bc_act owns' reads' gives D)|by eapply own_worker]. }
    rewrite Hw in Hi. injection Hi as <-. congruence. }
  assert (Hclose : forall i l d k', locals c !! i = Some l -> bc_act l = Close d k' -> d.1 ∉ [3; 4; 5]).
  { intros i l d k' Hi Ai Hd. assert (i = 2) as ->.
    { eapply (sender_unique owns' reads' c i 2 l (BL (LW w)) d HE Hi Hw); [by eapply (own_close bc_act owns' reads' gives D)|by eapply own_worker]. }
    rewrite Hw in Hi. injection Hi as <-. congruence. }
  assert (Hrecv : forall j l d kr, locals c !! j = Some l -> bc_act l = Recv d kr -> d.1 ∈ [4; 5] -> j = 3).
  { intros j l d kr Hj Aj Hd. eapply (reader_unique owns' reads' c j 3 l (BC s) d HE Hj Hc); [by eapply (read_recv bc_act owns' reads' gives D)|exact Hd]. }
  assert (Hc45 : ch.1 ∈ [4; 5]) by (destruct Hch as [[-> _]|[n ->]]; apply (bool_decide_unpack _); vm_compute; exact I).
  split.
  - by eapply exclusive_step.
  - destruct (slot_step _ c c' 2 _ Hs Hw) as [E|[(ch' & v' & k' & A & E & _ & j & l' & kr & Hj & Aj)|[(ch' & kr & v' & A & _)|(ch' & k' & A & _)]]]; [done|exfalso|congruence..].
    rewrite Aw in A. injection A as <- <- <-. pose proof (Hrecv j l' ch kr Hj Aj Hc45) as ->. rewrite Hc in Hj. injection Hj as <-.
    destruct Hch as [[-> [g ->]]|[n ->]]; [discriminate Aj|]. destruct w as [| |c0 n0 rs ca|n0 [|r rs] ca| | |]; try done; destruct s as [g|? ? ? ? ?|?|?]; try done; discriminate Aj.
  - destruct (slot_step _ c c' 3 _ Hs Hc) as [E|[(ch' & v' & k' & A & _)|[(ch' & kr & v' & A & _ & _ & Hv)|(ch' & k' & A & _)]]]; [done|destruct s; discriminate A|exfalso|destruct s; discriminate A].
    assert (Hl : exists g, s = CLoop g) by (destruct w as [| |? ? ? ?|? [|? ?] ?| | |]; try done; destruct s; try done; try discriminate A; by eexists). destruct Hl as [g ->].
    injection A as <- <-. destruct v' as [v'|]; [|done]. destruct Hv as (j & l' & k' & Hj & Aj).
    assert (c_res2 = ch) as <- by (eapply Hsend; [exact Hj|exact Aj|apply (bool_decide_unpack _); vm_compute; exact I]). destruct Hch as [[_ [? E]]|[? E]]; discriminate E.
  - split; intros Hx; (destruct (closed_step _ c c' _ Hs Hx) as [?|(i & l & k' & Hi & Ai)]; [done|]); eapply Hclose; [exact Hi|exact Ai|apply (bool_decide_unpack _); vm_compute; exact I|exact Hi|exact Ai|apply (bool_decide_unpack _); vm_compute; exact I].
  - destruct (slot_step _ c c' 0 _ Hs H0) as [E|[(ch' & v' & k' & A & E & _)|[(ch' & kr & v' & A & E & _ & Hv)|(ch' & k' & A & E)]]].
    + by exists l0.
    + exists k'. split; [done|]. destruct l0 as [[m| | | | |]|?|?|?]; try done. destruct m; try done; injection A as <- <- <-. apply sends_before.
    + exists (kr v'). split; [done|]. destruct l0 as [[m| | | | |]|?|?|?]; try done. destruct m; try done; cbn in A; injection A as <- <-.
      * destruct v' as [[]|]; try exact I; [apply commit_before|apply end_before].
      * by destruct v'.
      * by destruct v'.
      * exfalso. destruct v' as [v'|]; [|done]. destruct Hv as (j & l' & k' & Hj & Aj).
        assert (c_done2 = ch) as <- by (eapply Hsend; [exact Hj|exact Aj|apply (bool_decide_unpack _); vm_compute; exact I]). rewrite !elem_of_cons, elem_of_nil in Hc45. cbn in Hc45. lia.
    + exists k'. split; [done|]. destruct l0 as [[m| | | | |]|?|?|?]; try done. destruct m; try done; injection A as <- <-. exact I.
Qed.
Lemma stuck_steps w s c c' : stuck w s -> is_stuck w s c -> rtc bc_step c c' -> is_stuck w s c'.
Proof. intros Hst Hi Hs. induction Hs as [|c c1 c' H1 _ IH]; [done|]. apply IH. by eapply stuck_step. Qed.

(** A schedule that gets stuck means that none returns. *)
Lemma stuck_everywhere w s f : stuck w s -> is_stuck w s f -> rtc bc_step bc_call f ->
  forall c, rtc bc_step bc_call c -> call_returned c = None /\ c_res2 ∉ closed c /\ part_of (commits_received c) (seen s).
Proof.
  intros Hst Hi Hf c Hc. destruct (confluent bc_act owns' reads' gives bc_disciplined _ _ _ bc_exclusive Hf Hc) as (d & Hfd & Hcd).
  destruct (stuck_steps w s f d Hst Hi Hfd) as [_ _ Hcs [Ho _] (l0 & H0 & Hm)]. split; [|split].
  - unfold call_returned. destruct (locals c !! 0) as [[[m| | | | |]|?|?|?]|] eqn:E; try done. destruct m; try done. exfalso.
    pose proof (stop_stays bc_act _ _ 0 (BL (LM (MStop oc w0))) Hcd eq_refl E) as Hx. rewrite H0 in Hx. injection Hx as ->. exact Hm.
  - intros Hx. apply Ho. clear -Hx Hcd. induction Hcd as [|x y z Hxy _ IH]; [done|]. apply IH.
    destruct Hxy as [ls cl0 a j l1 l2 ch' v k kr Ha Aa Hj Aj Hc|ls cl0 j l1 ch' kr Hj Aj Hc|ls cl0 a l1 ch' k Ha Aa Hc]; cbn [closed] in *; [done..|]. apply elem_of_union. by right.
  - by eapply received_part.
Qed.

Lemma run_is_prefix out oc w pre r post : run_top skip e o disk (log_run text).1 = (out, oc, w) -> out = pre ++ r :: post ->
  exists r0 c cs, (log_run text).1 = c :: cs /\ init_checkpoints skip o disk = Ret r0 /\ s_out (process_log e (pst_init r0) (c :: cs)).1 = s_out (pst_init r0) ++ pre ++ r :: post.
Proof.
  intros Hrun ->. unfold run_top in Hrun. destruct (log_run text).1 as [|c cs]; [injection Hrun as E _ _; by destruct pre|].
  destruct (init_checkpoints skip o disk) as [r0|m|m]; [|injection Hrun as E _ _; by destruct pre..]. exists r0, c, cs. split; [done|]. split; [done|].
  destruct (process_log e (pst_init r0) (c :: cs)) as [s' [[]|m|m]]; cbn [fst snd] in *; [destruct (decide (s_last s' = []))| |]; injection Hrun as <- _ _; done.
Qed.

(** Until the worker has the commit after [pre]. *)
Lemma bc_reaches out oc w pre c x post : prep_err = None -> log_err = None ->
  run_top skip e o disk (log_run text).1 = (out, oc, w) -> commits_for zt cl count meta orders cache0 0 out (pre ++ (c, x) :: post) -> reads_all want quit pre ->
  exists m p ca cs, before_done m /\ quiet (length pre) cs /\ rtc bc_step bc_call (bcfg m p (WRes c (length pre) x ca) pre cs).
Proof.
  intros Hp Hl Hrun Hcf Hall. pose proof (bc_start Hp Hl) as Hstart. clear Hp Hl.
  assert (Hsp : forall ys0 out0 cache n, commits_for zt cl count meta orders cache n out0 (ys0 ++ (c, x) :: post) ->
    exists o1 r o2 ca cb, out0 = o1 ++ r :: o2 /\ goes cache n o1 ys0 ca /\ meta !! r_commit r = Some c /\ code_info_files zt cl count meta (orders (n + length ys0)) ca r = Ret (cb, x)).
  { clear. induction ys0 as [|y ys0 IH]; intros out0 cache n H; inversion H as [|? ? r rs c0 ca x0 ys1 Hm Hx Hrest]; subst.
    - exists [], r, rs, cache, ca. rewrite Nat.add_0_r. split; [done|]. split; [constructor|]. done.
    - destruct (IH _ _ _ Hrest) as (o1 & r1 & o2 & ca1 & cb & -> & Hg & Hm1 & Hx1). exists (r :: o1), r1, o2, ca1, cb. split; [done|]. split; [by econstructor|]. split; [done|].
      cbn [length]. by replace (n + S (length ys0)) with (S n + length ys0) by lia. }
  destruct (Hsp _ _ _ _ Hcf) as (o1 & r & o2 & ca & cb & Eout & Hgo & Hm & Hx). cbn [plus] in Hx.
  destruct (run_is_prefix out oc w o1 r o2 Hrun Eout) as (r0 & c1 & cs1 & El & Ei & Hout). rewrite El in Hstart.
  assert (Hq0 : quiet 0 (∅ : gset chan)) by (intros y Hy; by apply elem_of_empty in Hy).
  destruct (run_until zt cl count meta orders cache0 skip e o disk text prep_err log_err write_err bc_act bc_HM (fun _ => eq_refl) (fun _ => eq_refl) c_tl c_ok bc_delivers
    None (c1 :: cs1) (log_run text).2 (pst_init r0) o1 r o2 cache0 [] ∅ pre ca) as (m & p & cl1 & Hb & Hq & HR);
    [right; rewrite Ei; split; [done|split; done]|exact Hq0|set_solver|exact Hout|exact Hgo|exact Hall|].
  exists m, p, cb, cl1. split; [done|]. split; [exact Hq|]. eapply rtc_transitive; [exact Hstart|].
  assert (Hon : on_result zt cl count meta orders ca (length ([] ++ pre)) r = WRes c (length pre) x cb) by (unfold on_result; cbn [app]; by rewrite Hm, Hx). rewrite Hon in HR. exact HR.
Qed.

(** The first commit that is not read. *)
Definition unread (pre : gotten) (c : mcommit T) (x : list record) : Prop :=
  quit = Some (length pre) \/ quit <> Some (length pre) /\ exists k, want (length pre) c = Some k /\ k < length x.
Lemma ok_or_unread pre c x : c_ok pre c x \/ unread pre c x.
Proof.
  unfold c_ok, unread. destruct (decide (quit = Some (length pre))) as [?|Hn]; [by right; left|]. destruct (want (length pre) c) as [k|]; [|by left].
  destruct (decide (length x <= k)); [by left|right; right]. split; [done|]. exists k. split; [done|lia].
Qed.
Lemma first_unread_from (ys : gotten) : forall p0, (forall pre c x post, ys = pre ++ (c, x) :: post -> c_ok (p0 ++ pre) c x) \/
  exists pre c x post, ys = pre ++ (c, x) :: post /\ (forall pre' c' x' post', pre = pre' ++ (c', x') :: post' -> c_ok (p0 ++ pre') c' x') /\ unread (p0 ++ pre) c x.
Proof.
  induction ys as [|[c x] ys IH]; intros p0; [left; intros pre c x post E; by destruct pre|].
  destruct (ok_or_unread p0 c x) as [H0|H0].
  - destruct (IH (p0 ++ [(c, x)])) as [H1|(pre & c1 & x1 & post & -> & H1 & H2)].
    + left. intros [|y pre] c1 rs post E; [injection E as <- <- <-; by rewrite app_nil_r|]. injection E as <- ->. specialize (H1 pre c1 rs post eq_refl). by rewrite <- app_assoc in H1.
    + right. exists ((c, x) :: pre), c1, x1, post. split; [done|]. split; [|by rewrite <- app_assoc in H2].
      intros [|y pre'] c' x' post' E; [injection E as <- <- <-; by rewrite app_nil_r|]. injection E as <- ->. specialize (H1 pre' c' x' post' eq_refl). by rewrite <- app_assoc in H1.
  - right. exists [], c, x, ys. split; [done|]. split; [intros pre' c' x' post' E; by destruct pre'|by rewrite app_nil_r].
Qed.
Lemma first_unread (ys : gotten) : ~ reads_all want quit ys -> exists pre c x post, ys = pre ++ (c, x) :: post /\ reads_all want quit pre /\ unread pre c x.
Proof.
  intros Hn. destruct (first_unread_from ys []) as [H|(pre & c & x & post & -> & H1 & H2)]; [by exfalso; apply Hn|].
  exists pre, c, x, post. split; [done|]. split; [exact H1|exact H2].
Qed.

(** What the caller ends up with. *)
Definition left_with (pre : gotten) (c : mcommit T) (x : list record) : gotten :=
  if decide (quit = Some (length pre)) then pre else pre ++ [(c, match want (length pre) c with Some k => take k x | None => x end)].
Lemma bc_stuck out oc w pre c x post : prep_err = None -> log_err = None ->
  run_top skip e o disk (log_run text).1 = (out, oc, w) -> commits_for zt cl count meta orders cache0 0 out (pre ++ (c, x) :: post) -> reads_all want quit pre ->
  unread pre c x -> exists w s f, stuck w s /\ seen s = left_with pre c x /\ is_stuck w s f /\ rtc bc_step bc_call f.
Proof.
  intros Hp Hl Hrun Hcf Hall Hun. destruct (bc_reaches out oc w pre c x post Hp Hl Hrun Hcf Hall) as (m & p & ca & cs & Hb & Hq & Hreach).
  assert (Hop : c_res2 ∉ cs /\ c_done2 ∉ cs) by (split; by eapply quiet_other). unfold left_with. destruct Hun as [Eq|[Nq (k & Ek & Hk)]].
  - rewrite decide_True by done. exists (WRes c (length pre) x ca), (CGone pre). eexists. split; [exact I|]. split; [done|]. split; [|exact Hreach].
    split; [by eapply exclusive_along; [apply bc_exclusive|]|done| |done|by eexists]. unfold scfg, c_tl, c_again. rewrite decide_True by done. done.
  - rewrite decide_False by done. rewrite Ek.
    assert (Hr2 : rtc bc_step bc_call (bcfg' m p (WBlames (length pre) (drop k x) ca) (c_again quit (pre ++ [(c, take k x)])) cs)).
    { eapply rtc_transitive; [exact Hreach|]. unfold scfg, c_tl. unfold c_again at 1. rewrite decide_False by done. comm 2 3; [by eapply quiet_other|]. rewrite Ek.
      apply (read_some m p (length pre) x ca k c [] pre cs); [by apply quiet_blames|lia]. }
    destruct (drop k x) as [|r rest] eqn:Ed; [apply (f_equal length) in Ed; rewrite drop_length in Ed; cbn in Ed; lia|].
    exists (WBlames (length pre) (r :: rest) ca), (c_again quit (pre ++ [(c, take k x)])). eexists. split; [unfold c_again; by destruct (decide _)|]. split; [apply seen_again|]. split; [|exact Hr2].
    split; [by eapply exclusive_along; [apply bc_exclusive|]|done|done|done|by eexists].
Qed.

(** ** Code with a caller that stops *)
Notation cq_step := (step cq_act).
Notation total g := (concat (map snd g)).
Definition q_tl (g : gotten) : list clocal := [BL (LF FLoop); BQ (q_again limit (total g))].
Definition q_ok (g : gotten) (c : mcommit T) (x : list record) : Prop := length (total g) + length x <= limit.
Definition qcfg (m : mstate) (p : pstate) (w : wstate) (f : fstate) (q : qstate) (cs : gset chan) : config chan clocal := Config [BL (LM m); BL (LP p); BL (LW w); BL (LF f); BQ q] cs.

Lemma pass_some m p n x rest ca got cs : c_blames n ∉ cs -> c_res ∉ cs -> length got + length x <= limit ->
  rtc cq_step (qcfg m p (WBlames n (x ++ rest) ca) (FBlames n) (q_again limit got) cs) (qcfg m p (WBlames n rest ca) (FBlames n) (q_again limit (got ++ x)) cs).
Proof.
  intros Hn Hr. revert got. induction x as [|r x IH]; intros got Hl; [rewrite app_nil_r; apply rtc_refl|]. cbn [app length] in *.
  unfold qcfg at 1. comm 2 3; [done|]. unfold q_again at 1. rewrite decide_False by lia. comm 3 4; [done|].
  replace (got ++ r :: x) with ((got ++ [r]) ++ x) by (by rewrite <- app_assoc). apply IH. rewrite app_length. cbn. lia.
Qed.
Lemma total_snoc (g : gotten) c x : total (g ++ [(c, x)]) = total g ++ x.
Proof. rewrite map_app, concat_app. cbn. by rewrite app_nil_r. Qed.
Lemma cq_delivers : delivers cq_act q_tl q_ok.
Proof.
  intros m p c x ca g cs Hq Hok. unfold scfg, q_tl. comm 2 3; [by eapply quiet_other|].
  eapply rtc_transitive; [pose proof (pass_some m p (length g) x [] ca (total g) cs) as H; rewrite app_nil_r in H; apply H; [by apply quiet_blames|by eapply quiet_other|exact Hok]|].
  unfold qcfg. clos 2; [by apply quiet_blames|]. eof 3; [set_solver|]. rewrite total_snoc. apply rtc_refl.
Qed.
Lemma cq_HM m : (forall oc w, m <> MCloseRes2 oc w) -> cq_act (BL (LM m)) = lift_act (m_act skip e o disk prep_err log_err write_err m).
Proof. done. Qed.
Lemma cq_start : prep_err = None -> log_err = None ->
  rtc cq_step cq_call (scfg q_tl (MLoop None) (PSend (log_run text).1 (log_run text).2) (WLoop cache0 0) [] ∅).
Proof.
  intros Hp Hl. unfold quitting_call, scfg, q_tl. comm 0 3; [set_solver|]. replace (match prep_err with Some x => MCloseRes2 (Err x) None | None => MStartW end) with MStartW by (by rewrite Hp).
  comm 0 2; [set_solver|]. replace (match log_err with Some x => MCloseGit (Err x) None | None => MStartP end) with MStartP by (by rewrite Hl). comm 0 1; [set_solver|]. apply rtc_refl.
Qed.

Lemma over_limit (ys : gotten) : limit < length (total ys) -> exists pre c x post, ys = pre ++ (c, x) :: post /\ length (total pre) <= limit /\ limit < length (total pre) + length x.
Proof.
  induction ys as [|[c x] ys IH] using rev_ind; [cbn; lia|]. rewrite total_snoc, app_length. intros Hl.
  destruct (decide (limit < length (total ys))) as [H|H].
  - destruct (IH H) as (pre & c1 & x1 & post & -> & H1 & H2). exists pre, c1, x1, (post ++ [(c, x)]). split; [by rewrite <- app_assoc|done].
  - exists ys, c, x, []. split; [done|lia].
Qed.
Lemma within_ok (pre : gotten) : length (total pre) <= limit -> all_ok q_ok [] pre.
Proof.
  intros Hl p1 c x p2 ->. cbn [app]. unfold q_ok. rewrite map_app, concat_app, app_length in Hl. cbn in Hl. rewrite app_length in Hl. lia.
Qed.

(** Run, CodeByCommit and Code have not got past the forwarder. *)
Definition main_early (l : clocal) : Prop := match l with BL (LM (MCloseRes _ _)) | BL (LM (MStop _ _)) => False | BL (LM _) | BL LBad => True | _ => False end.
Record q_stuck (f : @fstate T L) (q : qstate) (c : config chan clocal) : Prop := QStuck {
  qs_excl : exclusive owns' reads' c;
  qs_f : locals c !! 3 = Some (BL (LF f));
  qs_q : locals c !! 4 = Some (BQ q);
  qs_open : c_res ∉ closed c /\ c_done3 ∉ closed c;
  qs_main : exists l, locals c !! 0 = Some l /\ main_early l }.
Lemma sends_early rs nx : main_early (BL (LM (send_all write_err rs nx))).
Proof. destruct rs; cbn; [|done]. destruct nx; cbn; try done. by destruct (decide _). Qed.
Lemma q_stuck_step n r g c c' : q_stuck (FSend n r) (QGone g) c -> cq_step c c' -> q_stuck (FSend n r) (QGone g) c'.
Proof.
  intros [HE Hf Hq [Ho1 Ho2] (l0 & H0 & Hm)] Hs. pose proof cq_disciplined as D.
  assert (Hown : forall d : chan, d.1 ∈ [6; 7] -> owns' (BL (LF (FSend n r))) d) by (intros d Hd; exact Hd).
  assert (Hsend : forall i l d v' k', locals c !! i = Some l -> cq_act l = Send d v' k' -> d.1 ∈ [6; 7] -> d = c_res).
  { intros i l d v' k' Hi Ai Hd. assert (i = 3) as ->.
    { eapply (sender_unique owns' reads' c i 3 l (BL (LF (FSend n r))) d HE Hi Hf); [by eapply (own_send cq_act owns' reads' gives D)|by apply Hown]. }
    rewrite Hf in Hi. injection Hi as <-. cbn in Ai. by injection Ai as <- _ _. }
  assert (Hclose : forall i l d k', locals c !! i = Some l -> cq_act l = Close d k' -> d.1 ∉ [6; 7]).
  { intros i l d k' Hi Ai Hd. assert (i = 3) as ->.
    { eapply (sender_unique owns' reads' c i 3 l (BL (LF (FSend n r))) d HE Hi Hf); [by eapply (own_close cq_act owns' reads' gives D)|by apply Hown]. }
    rewrite Hf in Hi. injection Hi as <-. discriminate Ai. }
  split.
  - by eapply exclusive_step.
  - destruct (slot_step _ c c' 3 _ Hs Hf) as [E|[(ch' & v' & k' & A & E & _ & j & l' & kr & Hj & Aj)|[(ch' & kr & v' & A & _)|(ch' & k' & A & _)]]]; [done|exfalso|discriminate A..].
    cbn in A. injection A as <- <- <-. assert (j = 4) as ->.
    { eapply (reader_unique owns' reads' c j 4 l' (BQ (QGone g)) c_res HE Hj Hq); [by eapply (read_recv cq_act owns' reads' gives D)|cbn [reads']; apply (bool_decide_unpack _); vm_compute; exact I]. }
    rewrite Hq in Hj. injection Hj as <-. discriminate Aj.
  - destruct (slot_step _ c c' 4 _ Hs Hq) as [E|[(ch' & v' & k' & A & _)|[(ch' & kr & v' & A & _)|(ch' & k' & A & _)]]]; [done|discriminate A..].
  - split; intros Hx; (destruct (closed_step _ c c' _ Hs Hx) as [?|(i & l & k' & Hi & Ai)]; [done|]); eapply Hclose; [exact Hi|exact Ai|apply (bool_decide_unpack _); vm_compute; exact I|exact Hi|exact Ai|apply (bool_decide_unpack _); vm_compute; exact I].
  - destruct (slot_step _ c c' 0 _ Hs H0) as [E|[(ch' & v' & k' & A & E & _)|[(ch' & kr & v' & A & E & _ & Hv)|(ch' & k' & A & E)]]].
    + by exists l0.
    + exists k'. split; [done|]. destruct l0 as [[m| | | | |]|?|?|?]; try done. destruct m; try done; injection A as <- <- <-; [by destruct prep_err|by destruct log_err|done|]. apply sends_early.
    + exists (kr v'). split; [done|]. destruct l0 as [[m| | | | |]|?|?|?]; try done. destruct m; try done; cbn in A; injection A as <- <-.
      * destruct v' as [[]|]; try exact I; [unfold on_commit; destruct (match x with Some s => _ | None => _ end); [apply sends_early|done..]|].
        unfold on_end. destruct x as [s|]; [|done]. destruct (decide _); [apply (sends_early [] (NWrite s))|apply sends_early].
      * by destruct v'.
      * by destruct v'.
      * by destruct v'.
      * exfalso. destruct v' as [v'|]; [|done]. destruct Hv as (j & l' & k' & Hj & Aj).
        assert (E3 : c_done3 = c_res) by (eapply Hsend; [exact Hj|exact Aj|apply (bool_decide_unpack _); vm_compute; exact I]). discriminate E3.
    + exists k'. split; [done|]. destruct l0 as [[m| | | | |]|?|?|?]; try done. destruct m; try done; injection A as <- <-; exact I.
Qed.

Definition q_seen (q : @qstate T L) : list record := match q with QLoop g | QStop g | QGone g => g end.
Lemma q_seen_again g : q_seen (q_again limit g) = g.
Proof. unfold q_again. by destruct (decide _). Qed.
Lemma taker_step c c' q : cq_step c c' -> locals c !! 4 = Some (BQ q) ->
  (exists q', locals c' !! 4 = Some (BQ q') /\ q_seen q `prefix_of` q_seen q') \/ locals c' !! 4 = Some (BL LBad).
Proof.
  intros Hs Hi. destruct (slot_step _ c c' 4 (BQ q) Hs Hi) as [E|[(ch & v & k & A & _)|[(ch & kr & v & A & E & _)|(ch & k & A & _)]]].
  - left. by exists q.
  - destruct q; discriminate A.
  - destruct q as [g|g|g]; try discriminate A; injection A as <- <-.
    destruct v as [[| | | |r]|]; try (by right); left; (eexists; split; [exact E|]); [rewrite q_seen_again; by eexists|done].
  - destruct q; discriminate A.
Qed.
Lemma taker_steps c c' q : rtc cq_step c c' -> locals c !! 4 = Some (BQ q) ->
  (exists q', locals c' !! 4 = Some (BQ q') /\ q_seen q `prefix_of` q_seen q') \/ locals c' !! 4 = Some (BL LBad).
Proof.
  intros Hs. revert q. induction Hs as [c|c c1 c' H1 Hr IH]; intros q Hi; [left; by exists q|].
  destruct (taker_step c c1 q H1 Hi) as [(s1 & E1 & P1)|E1].
  - destruct (IH s1 E1) as [(s' & E' & P')|E']; [left; exists s'; split; [done|by etransitivity]|by right].
  - right. clear IH H1 Hi. induction Hr as [|c1 c2 c' H2 _ IH]; [done|]. apply IH.
    destruct (slot_step _ c1 c2 4 (BL LBad) H2 E1) as [E|[(ch & v & k & A & _)|[(ch & kr & v & A & E & _)|(ch & k & A & _)]]]; [done|discriminate A..].
Qed.

Lemma cq_stuck out oc w ys : prep_err = None -> log_err = None ->
  run_top skip e o disk (log_run text).1 = (out, oc, w) -> commits_for zt cl count meta orders cache0 0 out ys -> limit < length (total ys) ->
  exists n r f, q_stuck (FSend n r) (QGone (take limit (total ys))) f /\ rtc cq_step cq_call f.
Proof.
  intros Hp Hl Hrun Hcf Hlim. pose proof (cq_start Hp Hl) as Hstart. clear Hp Hl.
  destruct (over_limit ys Hlim) as (pre & c & x & post & -> & H1 & H2).
  assert (Hsp : forall ys0 out0 cache n, commits_for zt cl count meta orders cache n out0 (ys0 ++ (c, x) :: post) ->
    exists o1 r o2 ca cb, out0 = o1 ++ r :: o2 /\ goes cache n o1 ys0 ca /\ meta !! r_commit r = Some c /\ code_info_files zt cl count meta (orders (n + length ys0)) ca r = Ret (cb, x)).
  { clear. induction ys0 as [|y ys0 IH]; intros out0 cache n H; inversion H as [|? ? r rs c0 ca x0 ys1 Hm Hx Hrest]; subst.
    - exists [], r, rs, cache, ca. rewrite Nat.add_0_r. split; [done|]. split; [constructor|]. done.
    - destruct (IH _ _ _ Hrest) as (o1 & r1 & o2 & ca1 & cb & -> & Hg & Hm1 & Hx1). exists (r :: o1), r1, o2, ca1, cb. split; [done|]. split; [by econstructor|]. split; [done|].
      cbn [length]. by replace (n + S (length ys0)) with (S n + length ys0) by lia. }
  destruct (Hsp _ _ _ _ Hcf) as (o1 & r & o2 & ca & cb & Eout & Hgo & Hm & Hx). cbn [plus] in Hx.
  destruct (run_is_prefix out oc w o1 r o2 Hrun Eout) as (r0 & c1 & cs1 & El & Ei & Hout). rewrite El in Hstart.
  assert (Hq0 : quiet 0 (∅ : gset chan)) by (intros y Hy; by apply elem_of_empty in Hy).
  destruct (run_until zt cl count meta orders cache0 skip e o disk text prep_err log_err write_err cq_act cq_HM (fun _ => eq_refl) (fun _ => eq_refl) q_tl q_ok cq_delivers
    None (c1 :: cs1) (log_run text).2 (pst_init r0) o1 r o2 cache0 [] ∅ pre ca) as (m & p & cl1 & Hb & Hq & HR);
    [right; rewrite Ei; split; [done|split; done]|exact Hq0|set_solver|exact Hout|exact Hgo|by apply within_ok|].
  assert (Hon : on_result zt cl count meta orders ca (length ([] ++ pre)) r = WRes c (length pre) x cb) by (unfold on_result; cbn [app]; by rewrite Hm, Hx). rewrite Hon in HR.
  set (k := limit - length (total pre)). assert (Hk : k < length x) by (unfold k; lia).
  destruct (drop k x) as [|r1 rest] eqn:Ed; [apply (f_equal length) in Ed; rewrite drop_length in Ed; cbn in Ed; lia|].
  assert (Hlen : length (total pre ++ take k x) = limit) by (rewrite app_length, take_length; unfold k; lia).
  assert (Htake : take limit (total (pre ++ (c, x) :: post)) = total pre ++ take k x).
  { rewrite map_app, concat_app. cbn [map concat snd]. rewrite take_app_ge by lia. fold k. by rewrite take_app_le by lia. }
  assert (Hreach : rtc cq_step cq_call (qcfg m p (WBlames (length pre) rest cb) (FSend (length pre) r1) (QGone (total pre ++ take k x)) cl1)).
  { eapply rtc_transitive; [exact Hstart|]. eapply rtc_transitive; [exact HR|]. cbn [app]. unfold scfg, q_tl. comm 2 3; [by eapply quiet_other|].
    rewrite <- (take_drop k x) at 1. rewrite Ed.
    eapply rtc_transitive; [apply (pass_some m p (length pre) (take k x) (r1 :: rest) cb (total pre) cl1); [by apply quiet_blames|by eapply quiet_other|rewrite take_length; unfold k; lia]|].
    unfold qcfg. comm 2 3; [by apply quiet_blames|]. unfold q_again. rewrite decide_True by done. apply rtc_refl. }
  exists (length pre), r1. eexists. split; [|exact Hreach]. rewrite Htake. split.
  - revert Hreach. generalize (qcfg m p (WBlames (length pre) rest cb) (FSend (length pre) r1) (QGone (total pre ++ take k x)) cl1). clear.
    refine (rtc_ind_r _ _ _ _); [apply cq_exclusive|]. intros y z _ Hyz IH. eapply exclusive_step; [apply cq_disciplined|exact IH|exact Hyz].
  - done.
  - done.
  - split; by eapply quiet_other.
  - eexists. split; [reflexivity|]. by destruct m.
Qed.
Lemma cq_stuck_everywhere out oc w ys : prep_err = None -> log_err = None ->
  run_top skip e o disk (log_run text).1 = (out, oc, w) -> commits_for zt cl count meta orders cache0 0 out ys -> limit < length (total ys) ->
  (forall c, rtc cq_step cq_call c -> call_returned c = None /\ c_res ∉ closed c /\ taken c `prefix_of` take limit (total ys)) /\
  exists c, rtc cq_step cq_call c /\ taken c = take limit (total ys).
Proof.
  intros Hp Hl Hrun Hcf Hlim. destruct (cq_stuck out oc w ys Hp Hl Hrun Hcf Hlim) as (n & r & f & Hi & Hf). split.
  - intros c Hc. destruct (confluent cq_act owns' reads' gives cq_disciplined _ _ _ cq_exclusive Hf Hc) as (d & Hfd & Hcd).
    assert (Hd : q_stuck (FSend n r) (QGone (take limit (total ys))) d) by (clear Hf Hcd; induction Hfd as [|x y z Hxy _ IH]; [done|]; apply IH; by eapply q_stuck_step).
    destruct Hd as [_ _ Hq [Ho _] (l0 & H0 & Hm)]. split; [|split].
    + unfold call_returned. destruct (locals c !! 0) as [[[m| | | | |]|?|?|?]|] eqn:E; try done. destruct m; try done. exfalso.
      pose proof (stop_stays cq_act _ _ 0 (BL (LM (MStop oc0 w0))) Hcd eq_refl E) as Hx. rewrite H0 in Hx. injection Hx as ->. exact Hm.
    + intros Hx. apply Ho. clear -Hx Hcd. induction Hcd as [|x y z Hxy _ IH]; [done|]. apply IH.
      destruct Hxy as [ls cl0 a j l1 l2 ch' v k kr Ha Aa Hj Aj Hc|ls cl0 j l1 ch' kr Hj Aj Hc|ls cl0 a l1 ch' k Ha Aa Hc]; cbn [closed] in *; [done..|]. apply elem_of_union. by right.
    + destruct (taker_steps _ _ (q_again limit []) Hc eq_refl) as [(s1 & E1 & _)|E1].
      * assert (Et : taken c = q_seen s1) by (unfold taken; rewrite E1; by destruct s1). rewrite Et.
        destruct (taker_steps _ _ s1 Hcd E1) as [(s2 & E2 & P)|E2]; rewrite Hq in E2; [|discriminate E2]. by injection E2 as <-.
      * unfold taken. rewrite E1. apply prefix_nil.
  - exists f. split; [done|]. destruct Hi as [_ _ Hq _ _]. unfold taken. by rewrite Hq.
Qed.

(** ** Code with a caller that takes all records *)
Definition q_end (g : list record) : qstate := if decide (length g = limit) then QGone g else QStop g.
Definition cq_closing (cs : gset chan) : gset chan := {[ c_res ]} ∪ ({[ c_res2 ]} ∪ ({[ c_gitres ]} ∪ cs)).
Lemma cq_close_run oc w po ca n g cs : quiet n cs ->
  rtc cq_step (scfg q_tl (MWait oc w) (PDone po) (WLoop ca n) g cs) (qcfg (MStop oc w) (p_end po) WStop FStop (q_end (total g)) (cq_closing cs)).
Proof.
  intros Hq. unfold scfg, q_tl. assert (Hn : forall c : chan, c.1 <> 0 -> c.1 <> 5 -> c ∉ cs) by (intros c H1 H2; by eapply quiet_other).
  comm 1 0; [by apply Hn|]. clos 0; [by apply Hn|]. eof 2; [set_solver|]. comm 2 0; [rewrite elem_of_union, elem_of_singleton; intros [E|E]; [discriminate E|by apply Hn in E]|].
  clos 0; [rewrite elem_of_union, elem_of_singleton; intros [E|E]; [discriminate E|by apply Hn in E]|]. eof 3; [set_solver|].
  comm 3 0; [rewrite !elem_of_union, !elem_of_singleton; intros [E|[E|E]]; [discriminate E|discriminate E|by apply Hn in E]|].
  clos 0; [rewrite !elem_of_union, !elem_of_singleton; intros [E|[E|E]]; [discriminate E|discriminate E|by apply Hn in E]|].
  unfold q_again, q_end. destruct po; (destruct (decide _); [apply rtc_refl|eof 4; [set_solver|]; apply rtc_refl]).
Qed.
Lemma cq_reaches_end out oc w ys : prep_err = None -> log_err = None ->
  run_top skip e o disk (log_run text).1 = (out, oc, w) -> (forall m, oc <> Panic m) -> commits_for zt cl count meta orders cache0 0 out ys -> length (total ys) <= limit ->
  exists cs, c_res ∈ cs /\ rtc cq_step cq_call (qcfg (MStop (with_write write_err oc w) w) (p_end (log_run text).2) WStop FStop (q_end (total ys)) cs).
Proof.
  intros Hp Hl Hrun Hnp Hcf Hall. pose proof (cq_start Hp Hl) as Hstart. clear Hp Hl. unfold run_top in Hrun.
  apply goes_iff in Hcf as [ce Hgo]. set (po := (log_run text).2) in *. apply within_ok in Hall.
  destruct (log_run text).1 as [|c cs].
  - injection Hrun as <- <- <-. assert (ys = []) as -> by (by inversion Hgo). eexists. split; [|eapply rtc_transitive; [exact Hstart|]; eapply rtc_transitive; [apply (first_end zt cl count meta orders cache0 skip e o disk text prep_err log_err write_err cq_act cq_HM (fun _ => eq_refl) (fun _ => eq_refl) q_tl q_ok cq_delivers); set_solver|]].
    2: { cbn [on_end]. eapply (cq_close_run (Ret tt) None po cache0 0 []). by apply quiet_commits. }
    unfold cq_closing. set_solver.
  - assert (Hq0 : quiet 0 (∅ : gset chan)) by (intros x Hx; by apply elem_of_empty in Hx).
    destruct (init_checkpoints skip o disk) as [r|m|m] eqn:Ei.
    + destruct (process_log_out e (pst_init r) (c :: cs)) as [rs Hrs].
      assert (Hout : out = rs /\ exists oc', log_end write_err (process_log e (pst_init r) (c :: cs)) = MWait oc' w /\ oc' = with_write write_err oc w).
      { unfold log_end. destruct (process_log e (pst_init r) (c :: cs)) as [s' [[]|m|m]]; cbn [fst snd] in *.
        - cbn [after_sends]. destruct (decide (s_last s' = [])); injection Hrun as <- <- <-; (split; [by rewrite Hrs|]); [by edestruct Hnp|]. eexists. split; [reflexivity|].
          cbn [with_write]. by destruct write_err.
        - injection Hrun as <- <- <-. split; [by rewrite Hrs|]. eexists. split; [reflexivity|]. done.
        - injection Hrun as <- <- <-. by edestruct Hnp. }
      destruct Hout as [-> (oc' & Hle & ->)].
      destruct (run_sink zt cl count meta orders cache0 skip e o disk text prep_err log_err write_err cq_act cq_HM (fun _ => eq_refl) (fun _ => eq_refl) q_tl q_ok cq_delivers
        None (c :: cs) po (pst_init r) rs cache0 [] ∅ ys ce) as (p & ca & cl1 & HL & Hq & HR);
        [right; rewrite Ei; split; [done|split; done]|exact Hq0|set_solver|exact Hrs|exact Hgo|exact Hall|].
      unfold loop_ends in HL. rewrite Hle in HL, HR. subst p. eexists. split; [|eapply rtc_transitive; [exact Hstart|]; eapply rtc_transitive; [exact HR|]; by apply cq_close_run].
      unfold cq_closing. set_solver.
    + injection Hrun as <- <- <-. assert (ys = []) as -> by (by inversion Hgo).
      destruct (drain_sink zt cl count meta orders cache0 skip e o disk text prep_err log_err write_err cq_act cq_HM (fun _ => eq_refl) (fun _ => eq_refl) q_tl q_ok cq_delivers m cs po (WLoop cache0 0) [] ∅ 0 Hq0) as (cl1 & Hq1 & HDr); [set_solver|].
      eexists. split; [|eapply rtc_transitive; [exact Hstart|]; eapply rtc_transitive; [apply (first_commit skip e o disk text prep_err log_err write_err cq_act cq_HM (fun _ => eq_refl) q_tl); set_solver|]; unfold on_commit; rewrite Ei; cbn [omap_o obind];
        eapply rtc_transitive; [exact HDr|]; by apply cq_close_run].
      unfold cq_closing. set_solver.
    + injection Hrun as <- <- <-. by edestruct Hnp.
Qed.
Lemma cq_final oc w q cs : (exists g, q = QStop g \/ q = QGone g) -> final cq_act (qcfg (MStop oc w) PStop WStop FStop q cs).
Proof.
  intros [g Hg] c' Hs. unfold qcfg in Hs. assert (Hstop : forall i l, [BL (LM (MStop oc w)); BL (LP PStop); BL (LW WStop); BL (LF FStop); BQ q] !! i = Some l -> cq_act l = Stop).
  { intros [|[|[|[|[|i]]]]] l E; try discriminate E; injection E as <-; try reflexivity. by destruct Hg as [->| ->]. }
  inversion Hs as [ls cl' i j l l' c v k kr Hi Ai Hj Aj Hc|ls cl' j l c kr Hj Aj Hc|ls cl' i l c k Hi Ai Hc]; subst.
  - apply Hstop in Hi. congruence.
  - apply Hstop in Hj. congruence.
  - apply Hstop in Hi. congruence.
Qed.
Lemma cq_every_schedule out oc w ys : prep_err = None -> log_err = None -> (log_run text).2 = Ret tt ->
  run_top skip e o disk (log_run text).1 = (out, oc, w) -> (forall m, oc <> Panic m) -> commits_for zt cl count meta orders cache0 0 out ys -> length (total ys) <= limit ->
  (exists n, forall m c, nsteps cq_step m cq_call c -> m <= n) /\
  forall c, rtc cq_step cq_call c -> final cq_act c -> taken c = total ys /\ c_res ∈ closed c /\ call_returned c = Some (with_write write_err oc w, w).
Proof.
  intros Hp Hl Hpo Hrun Hnp Hcf Hall. destruct (cq_reaches_end out oc w ys Hp Hl Hrun Hnp Hcf Hall) as (cs & Hcs & Hreach). rewrite Hpo in Hreach. cbn [p_end] in Hreach.
  assert (Hce : exists g, q_end (total ys) = QStop g \/ q_end (total ys) = QGone g) by (exists (total ys); unfold q_end; destruct (decide _); auto).
  pose proof (cq_final (with_write write_err oc w) w (q_end (total ys)) cs Hce) as Hfin.
  split.
  - apply rtc_nsteps in Hreach as [n Hn]. exists n. intros m c Hm. eapply (schedules_agree cq_act owns' reads' gives); [apply cq_disciplined|apply cq_exclusive|exact Hn|exact Hfin|exact Hm].
  - intros c Hc Hfc. destruct (ends_the_same cq_act owns' reads' gives cq_disciplined _ _ c cq_exclusive Hreach Hfin Hc) as [_ Heq]. rewrite (Heq Hfc).
    split; [|split; done]. unfold taken. cbn [qcfg locals lookup list_lookup]. unfold q_end. by destruct (decide _).
Qed.
End Callers.
(** Commits with records, and lists of records. *)
Lemma commits_of_records {T L : Type} (zt : T) (cl : classifiers L) count meta orders cache n rs xs :
  records_for zt cl count meta orders cache n rs xs -> exists ys, commits_for zt cl count meta orders cache n rs ys /\ map snd ys = xs.
Proof.
  induction 1 as [cache n|cache n r rs cache' x xs [c Hc] Hx _ (ys & IH & <-)]; [exists []; split; [constructor|done]|].
  exists ((c, x) :: ys). split; [by econstructor|done].
Qed.
