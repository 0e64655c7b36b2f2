(** * Process.RunGetAll: proofs for C97 *)
From Verif.Model Require Import Base GoStrings IncBlame LogParser ParentsGraph Process Msgp Checkpoint CheckpointFS Net Pipeline GetAll.
From Verif.Spec Require Import Collecting Delivery.
From Verif.Proofs Require Import NetProofs PipelineProofs GetAllProofs.
From Coq Require Import Lia.

Section Run.
Context (skip : bytes -> pres unit) (e : env) (o : popts) (disk : fs) (text : bytes) (log_err write_err : option bytes).
Notation act := (r_act skip e o disk text log_err write_err).
Notation step := (step act).
Notation config := (config chan rlocal).

Definition r_owned (l : rlocal) : list nat :=
  match l with
  | RStart => [0; 1; 2; 3; 8; 9]
  | RL (LM m) => m_owns m ++ [3]
  | RL (LP (PSend _ _)) => [0; 1] | RL (LP (PDone _)) => [1]
  | RDone _ _ => [3]
  | _ => []
  end.
Definition r_readable (l : rlocal) : list nat :=
  match l with
  | RStart | RLoop _ | RWait _ => [2; 3]
  | RIdle => [0; 1; 9]
  | RL (LM _) => [0; 1]
  | RL (LP _) => [8]
  | _ => []
  end.
Definition r_given (c : nat) : list nat := match c with 8 => [0; 1] | 9 => [0; 1; 2; 3; 8] | _ => [] end.
Definition r_owns (l : rlocal) (c : chan) : Prop := c.1 ∈ r_owned l.
Definition r_reads (l : rlocal) (c : chan) : Prop := c.1 ∈ r_readable l.
Definition r_gives (c d : chan) : Prop := d.1 ∈ r_given c.1.

Lemma with3 (l : list nat) x : (x ∈ l -> x ∈ [2]) -> x ∈ l ++ [3] -> x ∈ [2; 3].
Proof. intros Hl [Hx|Hx]%elem_of_app; [apply Hl in Hx|]; rewrite ?elem_of_cons, elem_of_nil in *; naive_solver. Qed.
Ltac unpack := apply (bool_decide_unpack _); vm_compute; exact I.
Lemma run_disciplined : disciplined act r_owns r_reads r_gives.
Proof.
  split.
  - intros l c v k E. unfold r_owns, r_reads, r_gives. destruct l as [|g|g|g oc| |l|oc w|oc w|]; cbn [r_act] in E; try discriminate E.
    + injection E as <- <- <-. split; [unpack|]. split; [intros d; apply incl_dec; reflexivity|]. split; [intros d; apply minus_dec; reflexivity|intros d; apply incl_dec; reflexivity].
    + destruct l as [m|p| | | |]; cbn [run_act] in E; try discriminate E.
      * destruct m; cbn [m_act lift] in E; try discriminate E; injection E as <- <- <-.
        -- split; [unpack|]. split; [intros d; apply incl_dec; reflexivity|]. split; [intros d; apply minus_dec; reflexivity|intros d; apply incl_dec; reflexivity].
        -- split; [unpack|]. split; [intros d; apply incl_dec; reflexivity|]. split; [|intros d Hd; exact Hd].
           intros d Hd. cbn [r_owned] in Hd. apply (with3 _ _ (sends_own _ _ _ _)) in Hd. revert Hd. apply minus_dec. reflexivity.
      * destruct p as [|[|c' cs] oc|oc| |]; cbn [p_act start_act lift] in E; try discriminate E; injection E as <- <- <-; (split; [unpack|]);
          (split; [intros d; apply incl_dec; reflexivity|]); (split; [|intros d Hd; exact Hd]); intros d; try destruct oc; apply minus_dec; reflexivity.
    + injection E as <- <- <-. split; [unpack|]. split; [intros d; apply incl_dec; reflexivity|]. split; [intros d; apply minus_dec; reflexivity|intros d; apply incl_dec; reflexivity].
  - intros l c kr E. unfold r_owns, r_reads, r_gives. destruct l as [|g|g|g oc| |l|oc w|oc w|]; cbn [r_act] in E; try discriminate E.
    + injection E as <- <-. split; [unpack|]. split; [intros [| [] |] d; apply plus_dec; reflexivity|]. split; [intros d; apply incl_dec; reflexivity|]. intros [[| [] |]|] d; apply incl_dec; reflexivity.
    + injection E as <- <-. split; [unpack|]. split; [intros [| |] d; apply plus_dec; reflexivity|]. split; [intros d; apply incl_dec; reflexivity|]. intros [[| |]|] d; apply incl_dec; reflexivity.
    + injection E as <- <-. split; [unpack|]. split; [|split].
      * intros [| |] d; destruct log_err; apply plus_dec; reflexivity.
      * intros d; apply incl_dec; reflexivity.
      * intros [[| |]|] d; destruct log_err; apply incl_dec; reflexivity.
    + destruct l as [m|p| | | |]; cbn [run_act] in E; try discriminate E.
      * destruct m; cbn [m_act lift] in E; try discriminate E; injection E as <- <-; (split; [unpack|]).
        -- split; [|split].
           ++ intros [|[]|] d Hd; left; try (by apply elem_of_nil in Hd). cbn [r_owned] in Hd. exact (with3 _ _ (commit_own _ _ _ _ _ _ _ _) Hd).
           ++ intros d Hd. cbn [r_owned] in Hd. exact (with3 _ _ (end_own _ _ _ _) Hd).
           ++ intros [[|[]|]|] d; try (intros Hd; exact Hd); intros Hd; by apply elem_of_nil in Hd.
        -- split; [intros [| |] d; apply plus_dec; reflexivity|]. split; [intros d; apply incl_dec; reflexivity|]. intros [[| |]|] d; apply incl_dec; reflexivity.
        -- split; [intros [| |] d; apply plus_dec; reflexivity|]. split; [intros d; apply incl_dec; reflexivity|]. intros [[| |]|] d; apply incl_dec; reflexivity.
      * destruct p as [|[|c' cs] oc|oc| |]; cbn [p_act start_act lift] in E; try discriminate E; injection E as <- <-; (split; [unpack|]).
        split; [intros [|[]|] d; apply plus_dec; reflexivity|]. split; [intros d; apply incl_dec; reflexivity|]. intros [[|[]|]|] d; apply incl_dec; reflexivity.
  - intros l c k E. unfold r_owns, r_reads. destruct l as [|g|g|g oc| |l|oc w|oc w|]; cbn [r_act] in E; try discriminate E.
    destruct l as [m|p| | | |]; cbn [run_act] in E; try discriminate E.
    + destruct m; cbn [m_act lift] in E; try discriminate E; injection E as <- <-; (split; [unpack|]); (split; [intros d; apply incl_dec; reflexivity|intros d; apply incl_dec; reflexivity]).
    + destruct p as [|[|c' cs] oc|oc| |]; cbn [p_act start_act lift] in E; try discriminate E; injection E as <- <-; (split; [unpack|]);
        (split; [intros d; apply incl_dec; reflexivity|]); intros d Hd; exact Hd.
Qed.
Lemma run_exclusive : exclusive r_owns r_reads get_all_call.
Proof.
  intros i j l l' Hij Hi Hj. unfold r_owns, r_reads. destruct i as [|[|[|i]]], j as [|[|[|j]]]; try done; cbn in Hi, Hj; injection Hi as <-; injection Hj as <-;
    (split; intros d H1 H2; cbn in H1, H2; rewrite ?elem_of_cons, elem_of_nil in H1; rewrite ?elem_of_cons, elem_of_nil in H2; lia).
Qed.

(** ** One schedule *)
Definition rcfg (g : rlocal) (m : mstate) (p : pstate) (cs : gset chan) : config := Config [g; RL (LM m); RL (LP p)] cs.
Ltac comm i j := let a := constr:(act) in ccomm a i j.
Ltac eof j := let a := constr:(act) in ceof a j.
Ltac clos i := let a := constr:(act) in cclos a i.
Definition only_commits (cs : gset chan) : Prop := cs ⊆ {[ c_commits ]}.
Lemma oc_self : only_commits {[ c_commits ]}.
Proof. unfold only_commits. set_solver. Qed.
#[local] Hint Resolve oc_self : core.
Lemma oc_not cs (c : chan) : only_commits cs -> c <> c_commits -> c ∉ cs.
Proof. intros Hs Hc Hin. apply Hs, elem_of_singleton in Hin. done. Qed.

Lemma sends got rs nx p cs : only_commits cs ->
  rtc step (rcfg (RLoop got) (send_all write_err rs nx) p cs) (rcfg (RLoop (got ++ rs)) (after_sends write_err nx) p cs).
Proof.
  intros Hq. revert got. induction rs as [|r rs IH]; intros got; [rewrite app_nil_r; apply rtc_refl|].
  cbn [send_all]. unfold rcfg at 1. comm 1 0; [by apply oc_not|]. replace (got ++ r :: rs) with ((got ++ [r]) ++ rs) by (by rewrite <- app_assoc). apply IH.
Qed.
Lemma rdrain m cs po g : rtc step (rcfg g (MDrain m) (PSend cs po) ∅) (rcfg g (MWait (Err m) None) (PDone po) {[ c_commits ]}).
Proof.
  induction cs as [|c cs IH]; unfold rcfg.
  - clos 2; [set_solver|]. eof 1; [set_solver|]. rewrite union_empty_r_L. apply rtc_refl.
  - comm 2 1; [set_solver|]. exact IH.
Qed.
Lemma rcrash m cs po g : exists p cl1, p_stuck p /\ only_commits cl1 /\ rtc step (rcfg g (MCrash m) (PSend cs po) ∅) (rcfg g (MCrash m) p cl1).
Proof.
  destruct cs as [|c cs].
  - exists (PDone po), {[ c_commits ]}. split; [right; by exists po|]. split; [done|]. unfold rcfg. clos 2; [set_solver|]. rewrite union_empty_r_L. apply rtc_refl.
  - exists (PSend (c :: cs) po), ∅. split; [left; by exists c, cs, po|]. split; [unfold only_commits; set_solver|apply rtc_refl].
Qed.

Lemma rrun x cs po s rs got :
  at_state skip o disk x s cs -> s_out (process_log e s cs).1 = s_out s ++ rs ->
  exists p cl1, loop_ends write_err (process_log e s cs) p po /\ only_commits cl1 /\
    rtc step (rcfg (RLoop got) (MLoop x) (PSend cs po) ∅) (rcfg (RLoop (got ++ rs)) (log_end write_err (process_log e s cs)) p cl1).
Proof.
  revert x s rs got. induction cs as [|c cs IH]; intros x s rs got Hat Hout.
  - destruct Hat as [->|(_ & Hn & _)]; [|done]. assert (Hcl : rtc step (rcfg (RLoop got) (MLoop (Some s)) (PSend [] po) ∅)
                           (rcfg (RLoop got) (on_end e write_err (Some s)) (PDone po) {[ c_commits ]})).
    { unfold rcfg. clos 2; [set_solver|]. eof 1; [set_solver|]. rewrite union_empty_r_L. apply rtc_refl. }
    unfold process_log in *. cbn [process_commits] in *. unfold on_end in Hcl.
    assert (Hqq : only_commits {[ c_commits ]}) by done.
    destruct (decide (s_mparts s = ∅)) as [He|He].
    + cbn [fst] in Hout. rewrite <- (app_nil_r (s_out s)) in Hout at 1. apply app_inv_head in Hout as <-.
      exists (PDone po), {[ c_commits ]}. rewrite app_nil_r. split; [|split; [done|exact Hcl]].
      unfold loop_ends. destruct (log_end _ _); try reflexivity. right. by exists po.
    + destruct (got_merge_parts e s) as [s' oc] eqn:Eg. pose proof Eg as Eg0. cbn [fst snd] in *. apply got_merge_out in Eg as [rs' E']. rewrite E' in Hout. apply app_inv_head in Hout as ->.
      rewrite (new_results_app _ _ _ E') in Hcl.
      pose proof (sends got rs (match oc with Ret _ => NWrite s' | Err m | Panic m => NCrash m end) (PDone po) _ Hqq) as Hreach.
      exists (PDone po), {[ c_commits ]}. split; [unfold loop_ends; destruct (log_end _ _); try reflexivity; right; by exists po|]. split; [done|].
      eapply rtc_transitive; [exact Hcl|]. destruct oc as [[]|m|m]; [exact Hreach| |exact Hreach].
      exfalso. by eapply got_merge_no_err.
  - assert (Hcl : rtc step (rcfg (RLoop got) (MLoop x) (PSend (c :: cs) po) ∅) (rcfg (RLoop got) (on_commit skip e o disk write_err (Some s) c) (PSend cs po) ∅)).
    { rewrite <- (at_commit skip e o disk write_err x s _ c Hat). unfold rcfg. comm 2 1; [set_solver|]. apply rtc_refl. }
    unfold on_commit in Hcl. unfold process_log in *. cbn [process_commits] in *.
    destruct (process_commit e s c) as [s' oc] eqn:Ec. cbn [fst snd] in Hcl. apply process_commit_out in Ec as [r1 E1]. rewrite (new_results_app _ _ _ E1) in Hcl.
    assert (exists r2, rs = r1 ++ r2 /\ match oc with
      | Ret _ => s_out (process_log e s' cs).1 = s_out s' ++ r2 | _ => r2 = [] end) as (r2 & -> & Hr2).
    { destruct oc as [[]|m|m]; cbn [fst] in Hout.
      - assert (exists r2, s_out (process_log e s' cs).1 = s_out s' ++ r2) as [r2 E2] by apply process_log_out.
        exists r2. unfold process_log in E2. rewrite E2, E1, <- app_assoc in Hout. apply app_inv_head in Hout as <-. split; [done|]. unfold process_log. exact E2.
      - exists []. rewrite E1 in Hout. apply app_inv_head in Hout as <-. by rewrite app_nil_r.
      - exists []. rewrite E1 in Hout. apply app_inv_head in Hout as <-. by rewrite app_nil_r. }
    pose proof (sends got r1 (match oc with Ret _ => NLoop s' | Err m => NDrain m | Panic m => NCrash m end) (PSend cs po) ∅ ltac:(unfold only_commits; set_solver)) as Hreach.
    destruct oc as [[]|m|m]; cbn [after_sends] in Hreach.
    + destruct (IH (Some s') s' r2 (got ++ r1) (or_introl eq_refl) Hr2) as (p & cl1 & HL & Hq1 & HR).
      exists p, cl1. split; [exact HL|]. split; [done|]. rewrite app_assoc.
      eapply rtc_transitive; [exact Hcl|]. eapply rtc_transitive; [exact Hreach|exact HR].
    + subst r2. rewrite app_nil_r. exists (PDone po), {[ c_commits ]}. split; [reflexivity|]. split; [done|].
      eapply rtc_transitive; [exact Hcl|]. eapply rtc_transitive; [exact Hreach|apply rdrain].
    + subst r2. rewrite app_nil_r. destruct (rcrash m cs po (RLoop (got ++ r1))) as (p & cl1 & Hp & Hq1 & HD).
      exists p, cl1. split; [exact Hp|]. split; [done|]. eapply rtc_transitive; [exact Hcl|]. eapply rtc_transitive; [exact Hreach|exact HD].
Qed.

Definition r_end (oc : outcome unit) (w : option (repo * bytes)) (p : pstate) (got : list result) (cs : gset chan) : config :=
  Config [RRet got oc; RStop oc w; RL (LP p)] cs.
Lemma rclose oc w po got cs : only_commits cs ->
  rtc step (rcfg (RLoop got) (MWait oc w) (PDone po) cs) (r_end oc w (p_end po) got ({[ c_gitres ]} ∪ cs)).
Proof.
  intros Hq. unfold rcfg. comm 2 1; [by apply oc_not|]. clos 1; [by apply oc_not|]. eof 0; [set_solver|].
  comm 1 0; [rewrite elem_of_union, elem_of_singleton; intros [E|E]; [discriminate E|revert E; by apply oc_not]|]. unfold r_end, p_end. destruct po; apply rtc_refl.
Qed.
Lemma r_end_final oc w p got cs : p = PStop \/ p = PIdle /\ c_start_p ∉ cs \/ (exists m, p = PCrash m) -> final act (r_end oc w p got cs).
Proof.
  intros Hp c' Hs. unfold r_end in Hs.
  assert (Ha : forall i l, [RRet got oc; RStop oc w; RL (LP p)] !! i = Some l -> act l = Stop \/ act l = Crash \/ (c_start_p ∉ cs /\ exists k, act l = Recv c_start_p k)).
  { intros [|[|[|i]]] l Hl; try discriminate Hl; injection Hl as <-; [by left|by left|]. destruct Hp as [->|[[-> Hc]|[m ->]]]; [by left|right; right|right; by left].
    split; [done|]. by eexists. }
  inversion Hs as [ls' cl' i j l l' ch v k kr Hi Ai Hj Aj Hch|ls' cl' j l ch kr Hj Aj Hch|ls' cl' i l ch k Hi Ai Hch]; subst.
  - apply Ha in Hi as [E|[E|(_ & k' & E)]]; rewrite Ai in E; discriminate E.
  - apply Ha in Hj as [E|[E|(Hn & k' & E)]]; rewrite Aj in E; try discriminate E. injection E as -> _. done.
  - apply Ha in Hi as [E|[E|(_ & k' & E)]]; rewrite Ai in E; discriminate E.
Qed.
Lemma r_crash_final m p got cs : p_stuck p -> only_commits cs -> final act (rcfg (RLoop got) (MCrash m) p cs).
Proof.
  intros Hp Hq c' Hs. unfold rcfg in Hs.
  inversion Hs as [ls' cl' i j l l' ch v k kr Hi Ai Hj Aj Hch|ls' cl' j l ch kr Hj Aj Hch|ls' cl' i l ch k Hi Ai Hch]; subst.
  - destruct i as [|[|[|i]]]; try discriminate Hi; injection Hi as <-; try discriminate Ai.
    destruct Hp as [(c0 & cs0 & po & ->)|(po & ->)]; cbn in Ai; injection Ai as <- <- <-;
      (destruct j as [|[|[|j]]]; try discriminate Hj; injection Hj as <-; discriminate Aj).
  - destruct j as [|[|[|j]]]; try discriminate Hj; injection Hj as <-; try discriminate Aj.
    + cbn in Aj. injection Aj as <- _. revert Hch. by apply oc_not.
    + destruct Hp as [(c0 & cs0 & po & ->)|(po & ->)]; discriminate Aj.
  - destruct i as [|[|[|i]]]; try discriminate Hi; injection Hi as <-; try discriminate Ai.
    destruct Hp as [(c0 & cs0 & po & ->)|(po & ->)]; discriminate Ai.
Qed.

(** The configuration that every schedule ends in. *)
Definition ends_in (oc : outcome unit) (w : option (repo * bytes)) (po : outcome unit) (got : list result) (c : config) : Prop :=
  match oc with
  | Panic m => exists p cs, p_stuck p /\ only_commits cs /\ c = rcfg (RLoop got) (MCrash m) p cs
  | _ => exists cs, c = r_end (with_write write_err oc w) w (p_end po) got cs
  end.
Lemma run_reaches out oc w : log_err = None -> run_top skip e o disk (log_run text).1 = (out, oc, w) ->
  exists c, rtc step get_all_call c /\ ends_in oc w (log_run text).2 out c.
Proof.
  intros Hl Hrun. unfold run_top in Hrun.
  assert (Hstart : rtc step get_all_call (rcfg (RLoop []) (MLoop None) (PSend (log_run text).1 (log_run text).2) ∅)).
  { unfold get_all_call. comm 0 1; [set_solver|]. replace (match log_err with Some x => MCloseGit (Err x) None | None => MStartP end) with MStartP by (by rewrite Hl).
    comm 1 2; [set_solver|]. apply rtc_refl. }
  clear Hl. set (po := (log_run text).2) in *. destruct (log_run text).1 as [|c cs].
  - injection Hrun as <- <- <-. eexists. split.
    + eapply rtc_transitive; [exact Hstart|]. unfold rcfg. clos 2; [set_solver|]. eof 1; [set_solver|]. cbn [on_end].
      eapply (rclose (Ret tt) None po []). unfold only_commits. set_solver.
    + eexists. reflexivity.
  - destruct (init_checkpoints skip o disk) as [r|m|m] eqn:Ei.
    + destruct (process_log_out e (pst_init r) (c :: cs)) as [rs Hrs].
      assert (Hout : out = rs /\ match log_end write_err (process_log e (pst_init r) (c :: cs)) with
        | MWait oc' w' => oc' = with_write write_err oc w /\ w' = w /\ (forall m, oc <> Panic m) | MCrash m => oc = Panic m | _ => False end).
      { unfold log_end. destruct (process_log e (pst_init r) (c :: cs)) as [s' [[]|m|m]]; cbn [fst snd] in *.
        - cbn [after_sends]. destruct (decide (s_last s' = [])); injection Hrun as <- <- <-; (split; [by rewrite Hrs|]); [done|].
          split; [|split; done]. cbn [with_write]. by destruct write_err.
        - injection Hrun as <- <- <-. split; [by rewrite Hrs|]. split; [|split; done]. done.
        - injection Hrun as <- <- <-. split; [by rewrite Hrs|done]. }
      destruct Hout as [-> Hend].
      destruct (rrun None (c :: cs) po (pst_init r) rs []) as (p & cl1 & HL & Hq & HR);
        [right; rewrite Ei; split; [done|split; done]|exact Hrs|].
      unfold loop_ends in HL. destruct (log_end _ _) as [| | | | | |oc' w'| | | | | | |m]; try done.
      * destruct Hend as (-> & -> & Hnp). subst p. eexists. split.
        -- eapply rtc_transitive; [exact Hstart|]. eapply rtc_transitive; [exact HR|]. by apply rclose.
        -- unfold ends_in. destruct oc as [[]|m|m]; [| |by destruct (Hnp m)]; (eexists; reflexivity).
      * subst oc. eexists. split; [eapply rtc_transitive; [exact Hstart|exact HR]|]. exists p, cl1. done.
    + injection Hrun as <- <- <-. eexists. split.
      * eapply rtc_transitive; [exact Hstart|]. unfold rcfg at 1. comm 2 1; [set_solver|]. unfold on_commit. rewrite Ei. cbn [omap_o obind].
        eapply rtc_transitive; [apply rdrain|]. apply rclose. done.
      * eexists. reflexivity.
    + injection Hrun as <- <- <-. destruct (rcrash m cs po (RLoop [])) as (p & cl1 & Hps & Hq1 & HD). eexists. split.
      * eapply rtc_transitive; [exact Hstart|]. unfold rcfg at 1. comm 2 1; [set_solver|]. unfold on_commit. rewrite Ei. cbn [omap_o obind]. exact HD.
      * exists p, cl1. done.
Qed.
Lemma ends_final oc w po got c : ends_in oc w po got c -> final act c.
Proof.
  destruct oc as [[]|m|m]; cbn [ends_in]; [| |intros (p & cs & H1 & H2 & ->); by apply r_crash_final];
    intros (cs & ->); (apply r_end_final; destruct po; cbn; [by left|right; right; by eexists..]).
Qed.
Lemma early_end m : log_err = Some m -> exists cs, c_start_p ∉ cs /\ rtc step get_all_call (r_end (Err m) None PIdle [] cs).
Proof.
  intros Hl. exists {[ c_gitres ]}. split; [set_solver|]. unfold get_all_call. comm 0 1; [set_solver|].
  replace (match log_err with Some x => MCloseGit (Err x) None | None => MStartP end) with (MCloseGit (Err m) None) by (by rewrite Hl).
  clos 1; [set_solver|]. eof 0; [set_solver|]. comm 1 0; [set_solver|]. rewrite union_empty_r_L. apply rtc_refl.
Qed.

(** ** Every schedule *)
Lemma returned_not_crashing oc w p got cs : p = PStop \/ p = PIdle /\ c_start_p ∉ cs -> ~ crashing act (r_end oc w p got cs).
Proof.
  intros Hp (l & Hl & Hc). unfold r_end in Hl, Hc. cbn [locals closed] in *. rewrite !elem_of_cons, elem_of_nil in Hl.
  destruct Hl as [->|[->|[->|[]]]]; try done. destruct Hp as [->|[-> _]]; done.
Qed.
Lemma every_to f : rtc step get_all_call f -> final act f ->
  (exists n, forall m c, nsteps step m get_all_call c -> m <= n) /\
  forall c, rtc step get_all_call c -> rtc step c f /\ (final act c -> c = f) /\ (crashing act c -> crashing act f).
Proof.
  intros HR Hf. pose proof run_disciplined as HD. pose proof run_exclusive as HE. split.
  - apply rtc_nsteps in HR as [n Hn]. exists n. intros m c Hm. exact (proj1 (schedules_agree act _ _ _ HD n _ _ HE Hn Hf m c Hm)).
  - intros c Hc. destruct (ends_the_same act _ _ _ HD _ _ _ HE HR Hf Hc) as [Hcf Heq]. split; [done|]. split; [done|].
    apply (crash_to act _ _ _ HD); [|done]. eapply exclusive_rtc; [exact HD|exact HE|exact Hc].
Qed.
Lemma every_end oc w p got cs : p = PStop \/ p = PIdle /\ c_start_p ∉ cs -> rtc step get_all_call (r_end oc w p got cs) ->
  (exists n, forall m c, nsteps step m get_all_call c -> m <= n) /\
  forall c, rtc step get_all_call c ->
    ~ crashing act c /\ (forall rs oc', got_all c rs oc' -> rs = got /\ oc' = oc) /\ (final act c -> all_routines_returned c /\ got_all c got oc).
Proof.
  intros Hp HR. destruct (every_to _ HR) as [Hb Hc]; [apply r_end_final; naive_solver|]. split; [exact Hb|]. intros c Hrc. destruct (Hc c Hrc) as (H1 & H2 & H3).
  split; [intros Hcr; eapply returned_not_crashing; [exact Hp|exact (H3 Hcr)]|]. split.
  - intros rs oc' Hg. pose proof (stop_stays act _ _ _ H1 Hg eq_refl) as Hg'. unfold r_end in Hg'. cbn [locals] in Hg'. rewrite !elem_of_cons, elem_of_nil in Hg'.
    destruct Hg' as [E|[E|[E|[]]]]; try discriminate E. by injection E as -> ->.
  - intros Hf. rewrite (H2 Hf). split; [|by left]. unfold all_routines_returned, r_end. cbn [locals]. repeat apply Forall_cons_2; [done|done| |constructor]. destruct Hp as [->|[-> _]]; done.
Qed.
Lemma get_all_every out oc w : log_err = None -> (log_run text).2 = Ret tt -> run_top skip e o disk (log_run text).1 = (out, oc, w) -> (forall m, oc <> Panic m) ->
  (exists n, forall m c, nsteps step m get_all_call c -> m <= n) /\
  forall c, rtc step get_all_call c ->
    ~ crashing act c /\ (forall rs oc', got_all c rs oc' -> rs = out /\ oc' = with_write write_err oc w) /\ (final act c -> all_routines_returned c /\ got_all c out (with_write write_err oc w)).
Proof.
  intros Hl Hp Hrun Hnp. destruct (run_reaches out oc w Hl Hrun) as (f & HR & Hf). rewrite Hp in Hf.
  destruct oc as [[]|m|m]; [| |by destruct (Hnp m)]; (destruct Hf as [cs ->]; apply (every_end _ w PStop out cs); [by left|exact HR]).
Qed.
Lemma get_all_panic out m w c : log_err = None -> run_top skip e o disk (log_run text).1 = (out, Panic m, w) -> rtc step get_all_call c ->
  (forall rs oc, ~ got_all c rs oc) /\ (final act c -> crashing act c).
Proof.
  intros Hl Hrun Hc. destruct (run_reaches out _ w Hl Hrun) as (f & HR & Hf). destruct (every_to f HR) as [_ Hev]; [by eapply ends_final|].
  destruct (Hev c Hc) as (H1 & H2 & _). destruct Hf as (p & cs & Hp & Hq & ->). split.
  - intros rs oc Hg. pose proof (stop_stays act _ _ _ H1 Hg eq_refl) as Hg'. unfold rcfg in Hg'. cbn [locals] in Hg'. rewrite !elem_of_cons, elem_of_nil in Hg'.
    destruct Hg' as [E|[E|[E|[]]]]; discriminate E.
  - intros Hfc. rewrite (H2 Hfc). exists (RL (LM (MCrash m))). split; [unfold rcfg; cbn [locals]; right; left|done].
Qed.
Lemma get_all_early m : log_err = Some m ->
  (exists n, forall k c, nsteps step k get_all_call c -> k <= n) /\
  forall c, rtc step get_all_call c ->
    ~ crashing act c /\ (forall rs oc, got_all c rs oc -> rs = [] /\ oc = Err m) /\ (final act c -> all_routines_returned c /\ got_all c [] (Err m)).
Proof. intros Hl. destruct (early_end m Hl) as (cs & Hcs & HR). apply (every_end (Err m) None PIdle [] cs); [by right|exact HR]. Qed.
End Run.
