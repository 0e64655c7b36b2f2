(** * The goroutines of a Code call: proofs for C53 and C54 *)
From Verif.Model Require Import Base GoStrings IncBlame LogParser ParentsGraph Process Msgp Checkpoint CheckpointFS CommitMeta FileInfo CodeInfo Net Pipeline.
From Verif.Spec Require Import Delivery.
From Verif.Proofs Require Import NetProofs.
From Coq Require Import Lia.

(** ** Results only grow *)
Lemma got_merge_out e s s' r : got_merge_parts e s = (s', r) -> exists rs, s_out s' = s_out s ++ rs.
Proof.
  unfold got_merge_parts. destruct (process_merge _ _ _ _ _) as [[q res]|m|m]; intros [= <- <-]; [exists [res]; reflexivity|exists []; by rewrite app_nil_r..].
Qed.
Lemma new_commit_out e s c s' r : new_commit e s c = (s', r) -> exists rs, s_out s' = s_out s ++ rs.
Proof.
  unfold new_commit. destruct (decide _); [intros [= <- <-]; exists []; by rewrite app_nil_r|].
  destruct (process_regular _ _ _ _) as [[q res]|m|m]; intros [= <- <-]; [exists [res]; reflexivity|exists []; by rewrite app_nil_r..].
Qed.
Lemma process_commit_out e s c s' r : process_commit e s c = (s', r) -> exists rs, s_out s' = s_out s ++ rs.
Proof.
  unfold process_commit. destruct (decide _); [apply new_commit_out|]. destruct (bool_decide _); [intros [= <- <-]; exists []; by rewrite app_nil_r|].
  destruct (got_merge_parts e s) as [s1 [[]|m|m]] eqn:E; [|intros [= <- <-]; by eapply got_merge_out..].
  intros E'. apply got_merge_out in E as [r1 E1]. apply new_commit_out in E' as [r2 E2]. exists (r1 ++ r2). by rewrite E2, E1, <- app_assoc.
Qed.
Lemma new_results_app s s' rs : s_out s' = s_out s ++ rs -> new_results s s' = rs.
Proof. intros E. unfold new_results. rewrite E. by rewrite drop_app_alt. Qed.

Lemma process_log_out e s cs : exists rs, s_out (process_log e s cs).1 = s_out s ++ rs.
Proof.
  unfold process_log. revert s. induction cs as [|c cs IH]; intros s; cbn [process_commits].
  - destruct (decide _); [exists []; by rewrite app_nil_r|]. destruct (got_merge_parts e s) eqn:E. by eapply got_merge_out.
  - destruct (process_commit e s c) as [s' [[]|m|m]] eqn:E; cbn [fst]; apply process_commit_out in E as [r1 E1]; [|by exists r1..].
    destruct (IH s') as [r2 E2]. exists (r1 ++ r2). by rewrite E2, E1, <- app_assoc.
Qed.
Lemma got_merge_no_err e s s' m : got_merge_parts e s <> (s', Err m).
Proof. unfold got_merge_parts. by destruct (process_merge _ _ _ _ _) as [[q res]|m'|m']. Qed.

Section Pipe.
Context {T L : Type} (zt : T) (cl : classifiers L).
Context (count : bytes -> bytes -> bytes -> list (Z * line_type) * totals) (meta : gmap bytes (mcommit T)).
Context (orders : nat -> list (bytes * blame) -> list (bytes * blame)) (cache0 : gmap bytes bytes).
Context (skip : bytes -> pres unit) (e : env) (o : popts) (disk : fs) (text : bytes) (prep_err log_err write_err : option bytes).
Notation act := (act zt cl count meta orders cache0 skip e o disk text prep_err log_err write_err).
Notation step := (step act).
Notation local := (@local T L).
Notation config := (config chan local).

(** ** Ownership of the channels *)
Definition m_owns (m : mstate) : list nat :=
  match m with
  | MStartF => [0; 1; 2; 3; 4; 5; 6; 7; 8; 9; 10]
  | MStartW => [0; 1; 2; 3; 4; 5; 8; 9]
  | MStartP => [0; 1; 2; 8]
  | MLoop _ | MSend _ _ _ | MDrain _ | MWait _ _ | MCloseGit _ _ => [2]
  | MCloseRes2 _ _ => [4]
  | MCloseRes _ _ => [7]
  | _ => []
  end.
Definition owned (l : local) : list nat :=
  match l with
  | LM m => m_owns m
  | LP (PSend _ _) => [0; 1] | LP (PDone _) => [1]
  | LW (WLoop _ _) | LW (WRes _ _ _ _) | LW (WBlames _ _ _) => [3; 4; 5] | LW WDone => [3; 4]
  | LF FLoop | LF (FBlames _) | LF (FSend _ _) | LF FDone => [6; 7]
  | _ => []
  end.
Definition readable (l : local) : list nat :=
  match l with LM _ => [0; 1; 3; 6] | LP _ => [8] | LW _ => [2; 9] | LF _ => [4; 5; 10] | LU _ => [7] | LBad => [] end.
Definition given (c : nat) : list nat :=
  match c with 3 => [4] | 6 => [7] | 8 => [0; 1] | 9 => [3; 4; 5] | 10 => [6; 7] | _ => [] end.
Definition owns (l : local) (c : chan) : Prop := c.1 ∈ owned l.
Definition reads (l : local) (c : chan) : Prop := c.1 ∈ readable l.
Definition gives (c d : chan) : Prop := d.1 ∈ given c.1.

Lemma incl_dec (a b : list nat) : forallb (fun x => bool_decide (x ∈ b)) a = true -> forall x, x ∈ a -> x ∈ b.
Proof. intros Hf x Hx. rewrite forallb_forall in Hf. apply elem_of_list_In, Hf in Hx. by apply bool_decide_eq_true in Hx. Qed.
Lemma minus_dec (a b g : list nat) : forallb (fun x => bool_decide (x ∈ b) && negb (bool_decide (x ∈ g))) a = true -> forall x, x ∈ a -> x ∈ b /\ x ∉ g.
Proof.
  intros Hf x Hx. rewrite forallb_forall in Hf. apply elem_of_list_In, Hf, andb_prop in Hx as [H1 H2].
  apply bool_decide_eq_true in H1. apply negb_true_iff, bool_decide_eq_false in H2. done.
Qed.
Lemma plus_dec (a b g : list nat) : forallb (fun x => bool_decide (x ∈ b) || bool_decide (x ∈ g)) a = true -> forall x, x ∈ a -> x ∈ b \/ x ∈ g.
Proof.
  intros Hf x Hx. rewrite forallb_forall in Hf. apply elem_of_list_In, Hf, orb_prop in Hx as [H1|H1]; apply bool_decide_eq_true in H1; auto.
Qed.

Lemma sends_own rs n x : x ∈ m_owns (send_all write_err rs n) -> x ∈ [2].
Proof.
  destruct rs as [|r rs]; [|done]. cbn [send_all]. destruct n; cbn [after_sends]; try done; [|intros Hx; by apply elem_of_nil in Hx].
  destruct (decide _); [intros Hx; by apply elem_of_nil in Hx|done].
Qed.
Lemma commit_own x c y : y ∈ m_owns (on_commit skip e o disk write_err x c) -> y ∈ [2].
Proof.
  unfold on_commit. destruct (match x with Some s => _ | None => _ end); [apply sends_own|done|intros Hx; by apply elem_of_nil in Hx].
Qed.
Lemma end_own x y : y ∈ m_owns (on_end e write_err x) -> y ∈ [2].
Proof.
  unfold on_end. destruct x as [s|]; [|done]. destruct (decide _); [apply (sends_own [] (NWrite s))|apply sends_own].
Qed.
Lemma result_own cache n r y : y ∈ owned (LW (on_result zt cl count meta orders cache n r)) -> y ∈ [3; 4; 5].
Proof.
  unfold on_result. destruct (meta !! _); [|intros Hx; by apply elem_of_nil in Hx]. destruct (code_info_files _ _ _ _ _ _ _) as [[? ?]|?|?]; [done|intros Hx; by apply elem_of_nil in Hx..].
Qed.

Lemma pipe_disciplined : disciplined act owns reads gives.
Proof.
  split.
  - intros l c v k A. unfold owns, reads, gives.
    assert (Hr : forall k', readable k = readable k' -> readable l = readable k' -> forall d : chan, d.1 ∈ readable k -> d.1 ∈ readable l)
      by (intros k' E1 E2 d; by rewrite E1, E2).
    destruct l as [m|p|w|f|u|]; cbn [Pipeline.act] in A.
    + destruct m; cbn [m_act] in A; try discriminate A; injection A as <- <- <-; (split; [apply (bool_decide_unpack _); vm_compute; exact I|]);
        (split; [intros d; apply incl_dec; reflexivity|]); (split; [|intros d Hd; exact Hd]); intros d Hd.
      * destruct prep_err; revert Hd; apply minus_dec; reflexivity.
      * destruct log_err; revert Hd; apply minus_dec; reflexivity.
      * revert Hd; apply minus_dec; reflexivity.
      * apply sends_own in Hd. revert Hd. apply minus_dec. reflexivity.
    + destruct p as [|[|c' cs] oc|oc| |]; cbn [p_act start_act] in A; try discriminate A; injection A as <- <- <-; (split; [apply (bool_decide_unpack _); vm_compute; exact I|]);
        (split; [intros d; apply incl_dec; reflexivity|]); (split; [|intros d Hd; exact Hd]); intros d; destruct oc; apply minus_dec; reflexivity.
    + destruct w as [| |c' n rs ca|n [|r rs] ca| | |]; cbn [w_act start_act] in A; try discriminate A; injection A as <- <- <-; (split; [apply (bool_decide_unpack _); vm_compute; exact I|]);
        (split; [intros d; apply incl_dec; reflexivity|]); (split; [|intros d Hd; exact Hd]); intros d; apply minus_dec; reflexivity.
    + destruct f; cbn [f_act start_act] in A; try discriminate A; injection A as <- <- <-; (split; [apply (bool_decide_unpack _); vm_compute; exact I|]);
        (split; [intros d; apply incl_dec; reflexivity|]); (split; [|intros d Hd; exact Hd]); intros d; apply minus_dec; reflexivity.
    + destruct u; discriminate A.
    + discriminate A.
  - intros l c kr A. unfold owns, reads, gives.
    assert (Hbad : forall d : chan, d.1 ∈ owned LBad -> False) by (intros d Hd; by apply elem_of_nil in Hd).
    assert (Hbad' : forall d : chan, d.1 ∈ readable LBad -> False) by (intros d Hd; by apply elem_of_nil in Hd).
    destruct l as [m|p|w|f|u|]; cbn [Pipeline.act] in A.
    + destruct m; cbn [m_act] in A; try discriminate A; injection A as <- <-; (split; [apply (bool_decide_unpack _); vm_compute; exact I|]).
      * split; [|split].
        -- intros v d Hd. left. destruct v; try (by apply Hbad in Hd). by apply commit_own in Hd.
        -- intros d Hd. by apply end_own in Hd.
        -- intros [[]|] d Hd; try exact Hd; by apply Hbad' in Hd.
      * split; [intros v d; apply plus_dec; reflexivity|]. split; [intros d; apply incl_dec; reflexivity|]. intros [v|] d Hd; exact Hd.
      * split; [intros v d; apply plus_dec; reflexivity|]. split; [intros d Hd; by apply Hbad in Hd|]. intros [v|] d Hd; [exact Hd|by apply Hbad' in Hd].
      * split; [intros v d; apply plus_dec; reflexivity|]. split; [intros d Hd; by apply Hbad in Hd|]. intros [v|] d Hd; [exact Hd|by apply Hbad' in Hd].
      * split; [intros v d; apply plus_dec; reflexivity|]. split; [intros d Hd; by apply Hbad in Hd|]. intros [v|] d Hd; [exact Hd|by apply Hbad' in Hd].
    + destruct p as [|[|c' cs] oc|oc| |]; cbn [p_act start_act] in A; try discriminate A; injection A as <- <-; (split; [apply (bool_decide_unpack _); vm_compute; exact I|]).
      split; [intros v d; destruct v; apply plus_dec; reflexivity|]. split; [intros d Hd; by apply Hbad in Hd|]. intros [[]|] d Hd; try exact Hd; by apply Hbad' in Hd.
    + destruct w as [| |c' n' rs ca|n' [|r rs] ca| | |]; cbn [w_act start_act] in A; try discriminate A; injection A as <- <-; (split; [apply (bool_decide_unpack _); vm_compute; exact I|]).
      * split; [intros v d; destruct v; apply plus_dec; reflexivity|]. split; [intros d Hd; by apply Hbad in Hd|]. intros [[]|] d Hd; try exact Hd; by apply Hbad' in Hd.
      * split; [|split].
        -- intros v d Hd. left. destruct v; try (by apply Hbad in Hd). by apply result_own in Hd.
        -- intros d. apply incl_dec. reflexivity.
        -- intros [[]|] d Hd; try exact Hd; by apply Hbad' in Hd.
    + destruct f; cbn [f_act start_act] in A; try discriminate A; injection A as <- <-; (split; [apply (bool_decide_unpack _); vm_compute; exact I|]).
      * split; [intros v d; destruct v; apply plus_dec; reflexivity|]. split; [intros d Hd; by apply Hbad in Hd|]. intros [[]|] d Hd; try exact Hd; by apply Hbad' in Hd.
      * split; [intros v d; destruct v; apply plus_dec; reflexivity|]. split; [intros d; apply incl_dec; reflexivity|]. intros [[]|] d Hd; try exact Hd; by apply Hbad' in Hd.
      * split; [intros v d; destruct v; apply plus_dec; reflexivity|]. split; [intros d; apply incl_dec; reflexivity|]. intros [[]|] d Hd; try exact Hd; by apply Hbad' in Hd.
    + destruct u; cbn [u_act] in A; try discriminate A; injection A as <- <-; (split; [apply (bool_decide_unpack _); vm_compute; exact I|]).
      split; [intros v d; destruct v; apply plus_dec; reflexivity|]. split; [intros d; apply incl_dec; reflexivity|]. intros [[]|] d Hd; try exact Hd; by apply Hbad' in Hd.
    + discriminate A.
  - intros l c k A. unfold owns, reads.
    destruct l as [m|p|w|f|u|]; cbn [Pipeline.act] in A.
    + destruct m; cbn [m_act] in A; try discriminate A; injection A as <- <-; (split; [apply (bool_decide_unpack _); vm_compute; exact I|]);
        (split; [intros d; apply incl_dec; reflexivity|]); intros d Hd; exact Hd.
    + destruct p as [|[|c' cs] oc|oc| |]; cbn [p_act start_act] in A; try discriminate A; injection A as <- <-; (split; [apply (bool_decide_unpack _); vm_compute; exact I|]);
        (split; [intros d; apply incl_dec; reflexivity|]); intros d Hd; exact Hd.
    + destruct w as [| |c' n rs ca|n [|r rs] ca| | |]; cbn [w_act start_act] in A; try discriminate A; injection A as <- <-; (split; [apply (bool_decide_unpack _); vm_compute; exact I|]);
        (split; [intros d; apply incl_dec; reflexivity|]); intros d Hd; exact Hd.
    + destruct f; discriminate A.
    + destruct u; discriminate A.
    + discriminate A.
Qed.

Lemma call_exclusive : exclusive owns reads (code_call (T := T) (L := L)).
Proof.
  intros i j l l' Hij Hi Hj. unfold owns, reads.
  destruct i as [|[|[|[|[|i]]]]]; destruct j as [|[|[|[|[|j]]]]]; try done; cbn in Hi, Hj; injection Hi as <-; injection Hj as <-;
    (split; intros d Hd Hd'; cbn in Hd, Hd'; rewrite ?elem_of_cons, elem_of_nil in Hd; rewrite ?elem_of_cons, elem_of_nil in Hd'; lia).
Qed.

(** ** One schedule *)

Definition cfg (m : mstate) (p : pstate) (w : wstate) (f : fstate) (u : ustate) (cs : gset chan) : config :=
  Config [LM m; LP p; LW w; LF f; LU u] cs.
Definition quiet (n : nat) (cs : gset chan) : Prop := forall c, c ∈ cs -> c = c_commits \/ exists j, j < n /\ c = c_blames j.
Lemma quiet_blames n cs : quiet n cs -> c_blames n ∉ cs.
Proof. intros Hq Hc. apply Hq in Hc as [E|(j & Hj & E)]; [discriminate E|]. injection E as ->. lia. Qed.
Lemma quiet_other n cs c : quiet n cs -> c.1 <> 0 -> c.1 <> 5 -> c ∉ cs.
Proof. intros Hq H1 H2 Hc. apply Hq in Hc as [->|(j & Hj & ->)]; cbn in *; done. Qed.
Lemma quiet_add n cs : quiet n cs -> quiet (S n) ({[ c_blames n ]} ∪ cs).
Proof.
  intros Hq c [E%elem_of_singleton|Hc]%elem_of_union; [right; exists n; split; [lia|done]|]. apply Hq in Hc as [->|(j & Hj & ->)]; [by left|right].
  exists j. split; [lia|done].
Qed.
Lemma quiet_commits n cs : quiet n cs -> quiet n ({[ c_commits ]} ∪ cs).
Proof. intros Hq c [E%elem_of_singleton|Hc]%elem_of_union; [by left|]. by apply Hq. Qed.

Ltac comm i j := (eapply rtc_l; [refine (step_comm act _ _ i j _ _ _ _ _ _ _ _ _ _ _); [reflexivity|reflexivity|reflexivity|reflexivity|]|]; cbn [insert list_insert]).
Ltac eof j := (eapply rtc_l; [refine (step_eof act _ _ j _ _ _ _ _ _); [reflexivity|reflexivity|]|]; cbn [insert list_insert]).
Ltac clos i := (eapply rtc_l; [refine (step_close act _ _ i _ _ _ _ _ _); [reflexivity|reflexivity|]|]; cbn [insert list_insert]).

Lemma send_records m p n rs cache got cs : quiet n cs ->
  rtc step (cfg m p (WBlames n rs cache) (FBlames n) (ULoop got) cs) (cfg m p (WLoop cache (S n)) FLoop (ULoop (got ++ rs)) ({[ c_blames n ]} ∪ cs)).
Proof.
  intros Hq. revert got. induction rs as [|r rs IH]; intros got.
  - unfold cfg. clos 2; [by apply quiet_blames|]. eof 3; [set_solver|]. rewrite app_nil_r. apply rtc_refl.
  - unfold cfg. comm 2 3; [by apply quiet_blames|]. comm 3 4; [by eapply quiet_other|]. replace (got ++ r :: rs) with ((got ++ [r]) ++ rs) by (by rewrite <- app_assoc). apply IH.
Qed.

Lemma send_results p nx rs rest cache n got cs xs : quiet n cs -> records_for zt cl count meta orders cache n (rs ++ rest) xs ->
  exists xs1 xs2 cache' n' cs', xs = xs1 ++ xs2 /\ quiet n' cs' /\ (c_commits ∈ cs <-> c_commits ∈ cs') /\ records_for zt cl count meta orders cache' n' rest xs2 /\
    rtc step (cfg (send_all write_err rs nx) p (WLoop cache n) FLoop (ULoop got) cs)
             (cfg (after_sends write_err nx) p (WLoop cache' n') FLoop (ULoop (got ++ concat xs1)) cs').
Proof.
  revert cache n got cs xs. induction rs as [|r rs IH]; intros cache n got cs xs Hq Hrf.
  - exists [], xs, cache, n, cs. rewrite app_nil_r. split; [done|]. split; [done|]. split; [done|]. split; [done|apply rtc_refl].
  - inversion Hrf as [|? ? ? ? cache' x xs' [c Hc] Hx Hrest]; subst.
    destruct (IH cache' (S n) (got ++ x) ({[ c_blames n ]} ∪ cs) xs' (quiet_add n cs Hq) Hrest) as (xs1 & xs2 & ca & n' & cs' & -> & Hq' & Hcm & Hr' & Hreach).
    exists (x :: xs1), xs2, ca, n', cs'. split; [done|]. split; [done|]. split; [rewrite <- Hcm; set_solver|]. split; [done|].
    cbn [send_all concat]. unfold cfg at 1. comm 0 2; [by eapply quiet_other|].
    assert (Hon : on_result zt cl count meta orders cache n r = WRes c n x cache') by (unfold on_result; by rewrite Hc, Hx). rewrite Hon.
    comm 2 3; [by eapply quiet_other|]. eapply rtc_transitive; [apply (send_records _ _ n x cache' got cs Hq)|]. rewrite app_assoc. exact Hreach.
Qed.

(** Where the main goroutine gets to, and the value of Run. *)
Definition log_end (x : pst * outcome unit) : mstate :=
  match x.2 with
  | Ret _ => after_sends write_err (NWrite x.1)
  | Err m => MWait (Err m) None
  | Panic m => MCrash m
  end.

Lemma drain m cs po w f u cl0 n : quiet n cl0 -> c_commits ∉ cl0 ->
  exists cl1, quiet n cl1 /\ rtc step (cfg (MDrain m) (PSend cs po) w f u cl0) (cfg (MWait (Err m) None) (PDone po) w f u cl1).
Proof.
  intros Hq Hc. exists ({[ c_commits ]} ∪ cl0). split; [by apply quiet_commits|]. induction cs as [|c cs IH]; unfold cfg.
  - clos 1; [done|]. eof 0; [set_solver|]. apply rtc_refl.
  - comm 1 0; [done|]. exact IH.
Qed.

(** A panic of the main goroutine: the parser may still close its channel. *)
Definition p_stuck (p : pstate) : Prop := (exists c cs po, p = PSend (c :: cs) po) \/ exists po, p = PDone po.
Lemma crash_end m cs po w f u cl0 n : quiet n cl0 -> c_commits ∉ cl0 ->
  exists p cl1, p_stuck p /\ quiet n cl1 /\ rtc step (cfg (MCrash m) (PSend cs po) w f u cl0) (cfg (MCrash m) p w f u cl1).
Proof.
  intros Hq Hc. destruct cs as [|c cs].
  - exists (PDone po), ({[ c_commits ]} ∪ cl0). split; [right; by exists po|]. split; [by apply quiet_commits|]. unfold cfg. clos 1; [done|]. apply rtc_refl.
  - exists (PSend (c :: cs) po), cl0. split; [left; by exists c, cs, po|]. split; [done|apply rtc_refl].
Qed.

(** The state after the loop, and where the parser is. *)
Definition loop_ends (x : pst * outcome unit) (p : pstate) (po : outcome unit) : Prop :=
  match log_end x with MCrash _ => p_stuck p | _ => p = PDone po end.

Definition at_state (x : option pst) (s : pst) (cs : list lcommit) : Prop :=
  x = Some s \/ (x = None /\ cs <> [] /\ omap_o pst_init (init_checkpoints skip o disk) = Ret s).
Lemma at_commit x s cs c : at_state x s cs -> on_commit skip e o disk write_err x c = on_commit skip e o disk write_err (Some s) c.
Proof. intros [->|(-> & _ & E)]; [done|]. unfold on_commit. by rewrite E. Qed.

Lemma run_commits x cs po s rs cache n got cl0 xs :
  at_state x s cs -> quiet n cl0 -> c_commits ∉ cl0 -> s_out (process_log e s cs).1 = s_out s ++ rs -> records_for zt cl count meta orders cache n rs xs ->
  exists p cache' n' cl1, loop_ends (process_log e s cs) p po /\ quiet n' cl1 /\
    rtc step (cfg (MLoop x) (PSend cs po) (WLoop cache n) FLoop (ULoop got) cl0)
             (cfg (log_end (process_log e s cs)) p (WLoop cache' n') FLoop (ULoop (got ++ concat xs)) cl1).
Proof.
  revert x s rs cache n got cl0 xs. induction cs as [|c cs IH]; intros x s rs cache n got cl0 xs Hat Hq Hc Hout Hrf.
  - destruct Hat as [->|(_ & Hn & _)]; [|done]. assert (Hcl : rtc step (cfg (MLoop (Some s)) (PSend [] po) (WLoop cache n) FLoop (ULoop got) cl0)
                           (cfg (on_end e write_err (Some s)) (PDone po) (WLoop cache n) FLoop (ULoop got) ({[ c_commits ]} ∪ cl0))).
    { unfold cfg. clos 1; [done|]. eof 0; [set_solver|]. apply rtc_refl. }
    apply quiet_commits in Hq. unfold process_log in *. cbn [process_commits] in *. unfold on_end in Hcl.
    destruct (decide (s_mparts s = ∅)) as [He|He].
    + cbn [fst] in Hout. rewrite <- (app_nil_r (s_out s)) in Hout at 1. apply app_inv_head in Hout as <-. inversion Hrf; subst.
      exists (PDone po), cache, n, ({[ c_commits ]} ∪ cl0). rewrite app_nil_r. split; [|split; [done|exact Hcl]].
      unfold loop_ends. destruct (log_end _); try reflexivity. right. by exists po.
    + destruct (got_merge_parts e s) as [s' oc] eqn:Eg. pose proof Eg as Eg0. cbn [fst snd] in *. apply got_merge_out in Eg as [rs' E']. rewrite E' in Hout. apply app_inv_head in Hout as ->.
      rewrite (new_results_app _ _ _ E') in Hcl. rewrite <- (app_nil_r rs) in Hrf.
      destruct (send_results (PDone po) (match oc with Ret _ => NWrite s' | Err m | Panic m => NCrash m end) rs [] cache n got _ xs Hq Hrf)
        as (xs1 & xs2 & ca & n' & cs' & -> & Hq' & _ & Hr' & Hreach). inversion Hr'; subst. rewrite app_nil_r.
      destruct oc as [[]|m|m].
      * exists (PDone po), ca, n', cs'. split; [unfold loop_ends; destruct (log_end _); try reflexivity; right; by exists po|]. split; [done|].
        eapply rtc_transitive; [exact Hcl|exact Hreach].
      * exfalso. by eapply got_merge_no_err.
      * exists (PDone po), ca, n', cs'. split; [unfold loop_ends; destruct (log_end _); try reflexivity; right; by exists po|]. split; [done|].
        eapply rtc_transitive; [exact Hcl|exact Hreach].
  - assert (Hcl : rtc step (cfg (MLoop x) (PSend (c :: cs) po) (WLoop cache n) FLoop (ULoop got) cl0)
                           (cfg (on_commit skip e o disk write_err (Some s) c) (PSend cs po) (WLoop cache n) FLoop (ULoop got) cl0)).
    { rewrite <- (at_commit x s _ c Hat). unfold cfg. comm 1 0; [done|]. apply rtc_refl. }
    unfold on_commit in Hcl. unfold process_log in *. cbn [process_commits] in *.
    destruct (process_commit e s c) as [s' oc] eqn:Ec. cbn [fst snd] in Hcl. apply process_commit_out in Ec as [r1 E1]. rewrite (new_results_app _ _ _ E1) in Hcl.
    assert (exists r2, rs = r1 ++ r2 /\ match oc with
      | Ret _ => s_out (process_log e s' cs).1 = s_out s' ++ r2 | _ => r2 = [] end) as (r2 & -> & Hr2).
    { destruct oc as [[]|m|m]; cbn [fst] in Hout.
      - assert (exists r2, s_out (process_log e s' cs).1 = s_out s' ++ r2) as [r2 E2] by apply process_log_out.
        exists r2. unfold process_log in E2. rewrite E2, E1, <- app_assoc in Hout. apply app_inv_head in Hout as <-. split; [done|]. unfold process_log. exact E2.
      - exists []. rewrite E1 in Hout. apply app_inv_head in Hout as <-. by rewrite app_nil_r.
      - exists []. rewrite E1 in Hout. apply app_inv_head in Hout as <-. by rewrite app_nil_r. }
    destruct (send_results (PSend cs po) (match oc with Ret _ => NLoop s' | Err m => NDrain m | Panic m => NCrash m end) r1 r2 cache n got cl0 xs Hq Hrf)
      as (xs1 & xs2 & ca & n' & cs' & -> & Hq' & Hcm & Hr' & Hreach).
    assert (Hc' : c_commits ∉ cs') by (by rewrite <- Hcm).
    destruct oc as [[]|m|m]; cbn [after_sends] in Hreach.
    + destruct (IH (Some s') s' r2 ca n' (got ++ concat xs1) cs' xs2 (or_introl eq_refl) Hq' Hc' Hr2 Hr') as (p & ca' & n'' & cl1 & HL & Hq1 & HR).
      exists p, ca', n'', cl1. split; [exact HL|]. split; [done|]. rewrite concat_app, app_assoc.
      eapply rtc_transitive; [exact Hcl|]. eapply rtc_transitive; [exact Hreach|exact HR].
    + subst r2. inversion Hr'; subst. rewrite app_nil_r.
      destruct (drain m cs po (WLoop ca n') FLoop (ULoop (got ++ concat xs1)) cs' n' Hq' Hc') as (cl1 & Hq1 & HD).
      exists (PDone po), ca, n', cl1. split; [reflexivity|]. split; [done|]. eapply rtc_transitive; [exact Hcl|]. eapply rtc_transitive; [exact Hreach|exact HD].
    + subst r2. inversion Hr'; subst. rewrite app_nil_r.
      destruct (crash_end m cs po (WLoop ca n') FLoop (ULoop (got ++ concat xs1)) cs' n' Hq' Hc') as (p & cl1 & Hp & Hq1 & HD).
      exists p, ca, n', cl1. split; [exact Hp|]. split; [done|]. eapply rtc_transitive; [exact Hcl|]. eapply rtc_transitive; [exact Hreach|exact HD].
Qed.

(** ** The end of the call *)
Definition p_end (po : outcome unit) : pstate := match po with Ret _ => PStop | Err m | Panic m => PCrash m end.
Definition closing (cs : gset chan) : gset chan := {[ c_res ]} ∪ ({[ c_res2 ]} ∪ ({[ c_gitres ]} ∪ cs)).

Lemma close_down oc w p ca n got cs : quiet n cs ->
  rtc step (cfg (MCloseGit oc w) p (WLoop ca n) FLoop (ULoop got) cs) (cfg (MStop oc w) p WStop FStop (UStop got) (closing cs)).
Proof.
  intros Hq. unfold cfg.
  assert (Hn : forall c : chan, c.1 <> 0 -> c.1 <> 5 -> c ∉ cs) by (intros c H1 H2; by eapply quiet_other).
  clos 0; [by apply Hn|]. eof 2; [set_solver|].
  comm 2 0; [rewrite elem_of_union, elem_of_singleton; intros [E|E]; [discriminate E|by apply Hn in E]|].
  clos 0; [rewrite elem_of_union, elem_of_singleton; intros [E|E]; [discriminate E|by apply Hn in E]|]. eof 3; [set_solver|].
  comm 3 0; [rewrite !elem_of_union, !elem_of_singleton; intros [E|[E|E]]; [discriminate E|discriminate E|by apply Hn in E]|].
  clos 0; [rewrite !elem_of_union, !elem_of_singleton; intros [E|[E|E]]; [discriminate E|discriminate E|by apply Hn in E]|].
  eof 4; [set_solver|]. apply rtc_refl.
Qed.
Lemma close_run oc w po ca n got cs : quiet n cs ->
  rtc step (cfg (MWait oc w) (PDone po) (WLoop ca n) FLoop (ULoop got) cs) (cfg (MStop oc w) (p_end po) WStop FStop (UStop got) (closing cs)).
Proof.
  intros Hq. unfold cfg at 1. comm 1 0; [by eapply quiet_other|]. destruct po; apply close_down; done.
Qed.

Lemma stopped_final oc w p wk f got cs : (p = PStop \/ p = PIdle /\ c_start_p ∉ cs \/ exists m, p = PCrash m) ->
  (wk = WStop \/ wk = WIdle /\ c_start_w ∉ cs) -> f = FStop -> final act (cfg (MStop oc w) p wk f (UStop got) cs).
Proof.
  intros Hp Hw -> c' Hs. unfold cfg in Hs.
  assert (Hsend : forall i l c v k, [LM (MStop oc w); LP p; LW wk; LF FStop; LU (UStop got)] !! i = Some l -> act l <> Send c v k).
  { intros [|[|[|[|[|i]]]]] l c v k; intros E; try discriminate E; injection E as <-; intros A; try discriminate A.
    - destruct Hp as [->|[[-> _]|[m ->]]]; discriminate A.
    - destruct Hw as [->|[-> _]]; discriminate A. }
  inversion Hs as [ls cl' i j l l' c v k kr Hi Ai Hj Aj Hc|ls cl' j l c kr Hj Aj Hc|ls cl' i l c k Hi Ai Hc]; subst.
  - exact (Hsend _ _ _ _ _ Hi Ai).
  - destruct j as [|[|[|[|[|j]]]]]; try discriminate Hj; injection Hj as <-; try discriminate Aj.
    + destruct Hp as [->|[[-> Hcs]|[m ->]]]; try discriminate Aj. cbn in Aj. injection Aj as <- <-. done.
    + destruct Hw as [->|[-> Hcs]]; try discriminate Aj. cbn in Aj. injection Aj as <- <-. done.
  - destruct i as [|[|[|[|[|i]]]]]; try discriminate Hi; injection Hi as <-; try discriminate Ai.
    + destruct Hp as [->|[[-> Hcs]|[m ->]]]; discriminate Ai.
    + destruct Hw as [->|[-> Hcs]]; discriminate Ai.
Qed.

Lemma crash_final m p ca n got cs : p_stuck p -> quiet n cs -> final act (cfg (MCrash m) p (WLoop ca n) FLoop (ULoop got) cs).
Proof.
  intros Hp Hq c' Hs. unfold cfg in Hs.
  inversion Hs as [ls cl' i j l l' c v k kr Hi Ai Hj Aj Hc|ls cl' j l c kr Hj Aj Hc|ls cl' i l c k Hi Ai Hc]; subst.
  - destruct i as [|[|[|[|[|i]]]]]; try discriminate Hi; injection Hi as <-; try discriminate Ai.
    destruct Hp as [(c0 & cs0 & po & ->)|(po & ->)]; cbn in Ai; injection Ai as <- <- <-;
      (destruct j as [|[|[|[|[|j]]]]]; try discriminate Hj; injection Hj as <-; discriminate Aj).
  - destruct j as [|[|[|[|[|j]]]]]; try discriminate Hj; injection Hj as <-; try discriminate Aj.
    + destruct Hp as [(c0 & cs0 & po & ->)|(po & ->)]; discriminate Aj.
    + cbn in Aj. injection Aj as <- <-. eapply quiet_other; [exact Hq| | |exact Hc]; done.
    + cbn in Aj. injection Aj as <- <-. eapply quiet_other; [exact Hq| | |exact Hc]; done.
    + cbn in Aj. injection Aj as <- <-. eapply quiet_other; [exact Hq| | |exact Hc]; done.
  - destruct i as [|[|[|[|[|i]]]]]; try discriminate Hi; injection Hi as <-; try discriminate Ai.
    destruct Hp as [(c0 & cs0 & po & ->)|(po & ->)]; discriminate Ai.
Qed.

(** ** The whole call *)
Definition call_end (oc : outcome unit) (w : option (repo * bytes)) (po : outcome unit) (got : list (bresult T L)) (c : config) : Prop :=
  match oc with
  | Panic m => exists p ca n cs, p_stuck p /\ quiet n cs /\ c = cfg (MCrash m) p (WLoop ca n) FLoop (ULoop got) cs
  | _ => exists cs, c_res ∈ cs /\ c = cfg (MStop (with_write write_err oc w) w) (p_end po) WStop FStop (UStop got) cs
  end.

Lemma call_reaches_end out oc w xs : prep_err = None -> log_err = None ->
  run_top skip e o disk (log_run text).1 = (out, oc, w) -> records_for zt cl count meta orders cache0 0 out xs ->
  exists c, rtc step code_call c /\ call_end oc w (log_run text).2 (concat xs) c.
Proof.
  intros Hp Hl Hrun Hrf. unfold run_top in Hrun.
  assert (Hstart : rtc step code_call (cfg (MLoop None) (PSend (log_run text).1 (log_run text).2) (WLoop cache0 0) FLoop (ULoop []) ∅)).
  { unfold code_call. comm 0 3; [set_solver|]. replace (match prep_err with Some x => MCloseRes2 (Err x) None | None => MStartW end) with MStartW by (by rewrite Hp).
    comm 0 2; [set_solver|]. replace (match log_err with Some x => MCloseGit (Err x) None | None => MStartP end) with MStartP by (by rewrite Hl). comm 0 1; [set_solver|]. apply rtc_refl. }
  clear Hp Hl. set (po := (log_run text).2) in *. destruct (log_run text).1 as [|c cs].
  - injection Hrun as <- <- <-. inversion Hrf; subst. cbn [concat]. eexists. split.
    + eapply rtc_transitive; [exact Hstart|]. unfold cfg. clos 1; [set_solver|]. eof 0; [set_solver|]. cbn [on_end].
      eapply (close_run (Ret tt) None po cache0 0 []). by apply quiet_commits.
    + eexists. split; [|reflexivity]. unfold closing. set_solver.
  - assert (Hq0 : quiet 0 (∅ : gset chan)) by (intros x Hx; by apply elem_of_empty in Hx).
    destruct (init_checkpoints skip o disk) as [r|m|m] eqn:Ei.
    + destruct (process_log_out e (pst_init r) (c :: cs)) as [rs Hrs].
      assert (Hout : out = rs /\ match log_end (process_log e (pst_init r) (c :: cs)) with
        | MWait oc' w' => oc' = with_write write_err oc w /\ w' = w /\ (forall m, oc <> Panic m) | MCrash m => oc = Panic m | _ => False end).
      { unfold log_end. destruct (process_log e (pst_init r) (c :: cs)) as [s' [[]|m|m]]; cbn [fst snd] in *.
        - cbn [after_sends]. destruct (decide (s_last s' = [])); injection Hrun as <- <- <-; (split; [by rewrite Hrs|]); [done|].
          split; [|split; done]. cbn [with_write]. by destruct write_err.
        - injection Hrun as <- <- <-. split; [by rewrite Hrs|]. split; [|split; done]. done.
        - injection Hrun as <- <- <-. split; [by rewrite Hrs|done]. }
      destruct Hout as [-> Hend].
      destruct (run_commits None (c :: cs) po (pst_init r) rs cache0 0 [] ∅ xs) as (p & ca & n & cl1 & HL & Hq & HR);
        [right; rewrite Ei; split; [done|split; done]|exact Hq0|set_solver|exact Hrs|exact Hrf|].
      unfold loop_ends in HL. destruct (log_end _) as [| | | | | |oc' w'| | | | | | |m]; try done.
      * destruct Hend as (-> & -> & Hnp). subst p. eexists. split.
        -- eapply rtc_transitive; [exact Hstart|]. eapply rtc_transitive; [exact HR|]. by apply close_run.
        -- unfold call_end. destruct oc as [[]|m|m]; [| |by destruct (Hnp m)]; (eexists; split; [|reflexivity]; unfold closing; set_solver).
      * subst oc. eexists. split; [eapply rtc_transitive; [exact Hstart|exact HR]|]. exists p, ca, n, cl1. done.
    + injection Hrun as <- <- <-. inversion Hrf; subst. cbn [concat].
      destruct (drain m cs po (WLoop cache0 0) FLoop (ULoop []) ∅ 0 Hq0) as (cl1 & Hq1 & HD); [set_solver|]. eexists. split.
      * eapply rtc_transitive; [exact Hstart|]. unfold cfg at 1. comm 1 0; [set_solver|]. unfold on_commit. rewrite Ei. cbn [omap_o obind].
        eapply rtc_transitive; [exact HD|]. by apply close_run.
      * eexists. split; [|reflexivity]. unfold closing. set_solver.
    + injection Hrun as <- <- <-. inversion Hrf; subst. cbn [concat].
      destruct (crash_end m cs po (WLoop cache0 0) FLoop (ULoop []) ∅ 0 Hq0) as (p & cl1 & Hps & Hq1 & HD); [set_solver|]. eexists. split.
      * eapply rtc_transitive; [exact Hstart|]. unfold cfg at 1. comm 1 0; [set_solver|]. unfold on_commit. rewrite Ei. cbn [omap_o obind]. exact HD.
      * exists p, cache0, 0, cl1. done.
Qed.
Lemma call_end_final oc w po got c : call_end oc w po got c -> final act c.
Proof.
  destruct oc as [[]|m|m]; cbn [call_end].
  - intros (cs & _ & ->). apply stopped_final; [|by left|done]. destruct po; cbn; [by left|right; right; by eexists..].
  - intros (cs & _ & ->). apply stopped_final; [|by left|done]. destruct po; cbn; [by left|right; right; by eexists..].
  - intros (p & ca & n & cs & H1 & H2 & ->). by apply crash_final.
Qed.
End Pipe.
