(** * Every schedule of a Code call: proofs for C53, C54, C59 *)
From Verif.Model Require Import Base GoStrings IncBlame LogParser ParentsGraph Process Msgp Checkpoint CheckpointFS CommitMeta FileInfo CodeInfo Net Pipeline.
From Verif.Spec Require Import Delivery.
From Verif.Proofs Require Import NetProofs PipelineProofs.
From Coq Require Import Lia.

Section Pipe.
Context {T L : Type} (zt : T) (cl : classifiers L).
Context (count : bytes -> bytes -> bytes -> list (Z * line_type) * totals) (meta : gmap bytes (mcommit T)).
Context (orders : nat -> list (bytes * blame) -> list (bytes * blame)) (cache0 : gmap bytes bytes).
Context (skip : bytes -> pres unit) (e : env) (o : popts) (disk : fs) (text : bytes) (prep_err log_err write_err : option bytes).
Notation act := (act zt cl count meta orders cache0 skip e o disk text prep_err log_err write_err).
Notation step := (step act).
Notation local := (@local T L).
Notation config := (config chan local).

Ltac comm i j := (eapply rtc_l; [refine (step_comm _ _ _ i j _ _ _ _ _ _ _ _ _ _ _); [reflexivity|reflexivity|reflexivity|reflexivity|]|]; cbn [insert list_insert]).
Ltac eof j := (eapply rtc_l; [refine (step_eof _ _ _ j _ _ _ _ _ _); [reflexivity|reflexivity|]|]; cbn [insert list_insert]).
Ltac clos i := (eapply rtc_l; [refine (step_close _ _ _ i _ _ _ _ _ _); [reflexivity|reflexivity|]|]; cbn [insert list_insert]).
(** ** Shapes *)
Definition closable (cs : gset chan) : Prop := forall c, c ∈ cs -> c.1 ∈ [0; 2; 4; 5; 7].
Definition got (u : @ustate T L) : list (bresult T L) := match u with ULoop g | UStop g => g end.
(** What was passed to Write, once Run has received the parser's message. *)
Definition past (m : mstate) : option (option (repo * bytes)) :=
  match m with
  | MCloseGit _ w | MWaitW _ w | MCloseRes2 _ w | MWaitF _ w | MCloseRes _ w | MStop _ w => Some w
  | _ => None
  end.
Definition p_past (p : pstate) : Prop := match p with PStop | PCrash _ => True | _ => False end.

Record moved_on (m : mstate) (p : pstate) (u : @ustate T L) (cs : gset chan) (m' : mstate) (p' : pstate) (u' : @ustate T L) (cs' : gset chan) : Prop := MovedOn {
  mo_got : got u `prefix_of` got u';
  mo_closed : c_res ∈ cs -> got u' = got u;
  mo_past w : past m = Some w -> past m' = Some w;
  mo_parser : (p_past p -> is_Some (past m)) -> p_past p' -> is_Some (past m');
  mo_stays : p_past p -> p' = p;
  mo_sub : cs ⊆ cs' }.

Lemma shape_step m p w f u cs c' : closable cs -> step (cfg m p w f u cs) c' ->
  exists m' p' w' f' u' cs', c' = cfg m' p' w' f' u' cs' /\ closable cs' /\ moved_on m p u cs m' p' u' cs'.
Proof.
  intros Hcl Hs. unfold cfg in Hs.
  assert (Hno : forall c : chan, c ∈ cs -> bool_decide (c.1 ∈ [0; 2; 4; 5; 7]) = true) by (intros c Hc; by apply bool_decide_eq_true, Hcl).
  assert (Hadd : forall c : chan, c.1 ∈ [0; 2; 4; 5; 7] -> closable ({[ c ]} ∪ cs)).
  { intros c Hc d [->%elem_of_singleton|Hd]%elem_of_union; [done|by apply Hcl]. }
  inversion Hs as [ls cl' i j l l' c v k kr Hi Ai Hj Aj Hc|ls cl' j l c kr Hj Aj Hc|ls cl' i l c k Hi Ai Hc]; subst.
  - destruct i as [|[|[|[|[|i]]]]]; try discriminate Hi; injection Hi as <-; cbn [Pipeline.act] in Ai.
    + destruct m as [| | |x|r rs n|err|oc w0|oc w0|oc w0|oc w0|oc w0|oc w0|oc w0|err]; cbn [m_act] in Ai; try discriminate Ai; injection Ai as <- <- <-;
      (destruct j as [|[|[|[|[|j]]]]]; try discriminate Hj; injection Hj as <-; cbn [Pipeline.act] in Aj;
       [|destruct p as [|[|c1 cs1] po|po| |]|destruct w as [| |c1 n1 rs1 ca|n1 [|r1 rs1] ca| | |]|destruct f|destruct u];
       cbn in Aj; try discriminate Aj; injection Aj as <-).
      * eexists _, _, _, _, _, _. split; [reflexivity|]. split; [exact Hcl|]. split; try done. intros HI Hp. apply HI in Hp as [? Hx]; discriminate Hx.
      * eexists _, _, _, _, _, _. split; [reflexivity|]. split; [exact Hcl|]. split; try done. intros HI Hp. apply HI in Hp as [? Hx]; discriminate Hx.
      * eexists _, _, _, _, _, _. split; [reflexivity|]. split; [exact Hcl|]. split; try done.
      * eexists _, _, _, _, _, _. split; [reflexivity|]. split; [exact Hcl|]. split; try done. intros HI Hp. apply HI in Hp as [? Hx]; discriminate Hx.
    + destruct p as [|[|c1 cs1] po|po| |]; cbn [p_act start_act] in Ai; try discriminate Ai; injection Ai as <- <- <-;
      (destruct j as [|[|[|[|[|j]]]]]; try discriminate Hj; injection Hj as <-; cbn [Pipeline.act] in Aj;
       [destruct m| |destruct w as [| |c2 n1 rs1 ca|n1 [|r1 rs1] ca| | |]|destruct f|destruct u];
       cbn in Aj; try discriminate Aj; injection Aj as <-).
      * eexists _, _, _, _, _, _. split; [reflexivity|]. split; [exact Hcl|]. split; try done.
      * eexists _, _, _, _, _, _. split; [reflexivity|]. split; [exact Hcl|]. split; try done.
      * eexists _, _, _, _, _, _. split; [reflexivity|]. split; [exact Hcl|]. split; try done.
    + destruct w as [| |c1 n1 rs1 ca|n1 [|r1 rs1] ca| | |]; cbn [w_act start_act] in Ai; try discriminate Ai; injection Ai as <- <- <-;
      (destruct j as [|[|[|[|[|j]]]]]; try discriminate Hj; injection Hj as <-; cbn [Pipeline.act] in Aj;
       [destruct m|destruct p as [|[|c2 cs2] po|po| |]| |destruct f|destruct u];
       cbn in Aj; try discriminate Aj; injection Aj).
      * intros <-. eexists _, _, _, _, _, _. split; [reflexivity|]. split; [exact Hcl|]. split; try done.
      * intros <- E. subst n1. eexists _, _, _, _, _, _. split; [reflexivity|]. split; [exact Hcl|]. split; try done.
      * intros <-. eexists _, _, _, _, _, _. split; [reflexivity|]. split; [exact Hcl|]. split; try done.
    + destruct f; cbn [f_act start_act] in Ai; try discriminate Ai; injection Ai as <- <- <-;
      (destruct j as [|[|[|[|[|j]]]]]; try discriminate Hj; injection Hj as <-; cbn [Pipeline.act] in Aj;
       [destruct m|destruct p as [|[|c2 cs2] po|po| |]|destruct w as [| |c1 n1 rs1 ca|n1 [|r1 rs1] ca| | |]| |destruct u];
       cbn in Aj; try discriminate Aj; injection Aj as <-).
      * eexists _, _, _, _, _, _. split; [reflexivity|]. split; [exact Hcl|]. split; try done. cbn. by eexists.
      * eexists _, _, _, _, _, _. split; [reflexivity|]. split; [exact Hcl|]. split; try done.
    + destruct u; discriminate Ai.
  - destruct j as [|[|[|[|[|j]]]]]; try discriminate Hj; injection Hj as <-; cbn [Pipeline.act] in Aj.
    + destruct m as [| | |x|r rs n|err|oc w0|oc w0|oc w0|oc w0|oc w0|oc w0|oc w0|err]; cbn [m_act] in Aj; try discriminate Aj; injection Aj as <- <-;
        try (apply Hno in Hc; discriminate Hc).
      * eexists _, _, _, _, _, _. split; [reflexivity|]. split; [exact Hcl|]. split; try done. intros HI Hp. apply HI in Hp as [? Hx]; discriminate Hx.
      * eexists _, _, _, _, _, _. split; [reflexivity|]. split; [exact Hcl|]. split; try done.
    + destruct p as [|[|c1 cs1] po|po| |]; cbn [p_act start_act] in Aj; try discriminate Aj; injection Aj as <- <-; apply Hno in Hc; discriminate Hc.
    + destruct w as [| |c1 n1 rs1 ca|n1 [|r1 rs1] ca| | |]; cbn [w_act start_act] in Aj; try discriminate Aj; injection Aj as <- <-;
        try (apply Hno in Hc; discriminate Hc).
      eexists _, _, _, _, _, _. split; [reflexivity|]. split; [exact Hcl|]. split; try done.
    + destruct f; cbn [f_act start_act] in Aj; try discriminate Aj; injection Aj as <- <-; try (apply Hno in Hc; discriminate Hc).
      * eexists _, _, _, _, _, _. split; [reflexivity|]. split; [exact Hcl|]. split; try done.
      * eexists _, _, _, _, _, _. split; [reflexivity|]. split; [exact Hcl|]. split; try done.
    + destruct u; cbn [u_act] in Aj; try discriminate Aj; injection Aj as <- <-.
      eexists _, _, _, _, _, _. split; [reflexivity|]. split; [exact Hcl|]. split; try done.
  - assert (Hsub : cs ⊆ {[ c ]} ∪ cs) by set_solver. destruct i as [|[|[|[|[|i]]]]]; try discriminate Hi; injection Hi as <-; cbn [Pipeline.act] in Ai.
    + destruct m as [| | |x|r rs n|err|oc w0|oc w0|oc w0|oc w0|oc w0|oc w0|oc w0|err]; cbn [m_act] in Ai; try discriminate Ai; injection Ai as <- <-;
        (eexists _, _, _, _, _, _; split; [reflexivity|]; split; [apply Hadd; apply (bool_decide_unpack _); vm_compute; exact I|]; split; try done).
    + destruct p as [|[|c1 cs1] po|po| |]; cbn [p_act start_act] in Ai; try discriminate Ai; injection Ai as <- <-;
        (eexists _, _, _, _, _, _; split; [reflexivity|]; split; [apply Hadd; apply (bool_decide_unpack _); vm_compute; exact I|]; split; try done).
    + destruct w as [| |c1 n1 rs1 ca|n1 [|r1 rs1] ca| | |]; cbn [w_act start_act] in Ai; try discriminate Ai; injection Ai as <- <-;
        (eexists _, _, _, _, _, _; split; [reflexivity|]; split; [apply Hadd; apply (bool_decide_unpack _); vm_compute; exact I|]; split; try done).
    + destruct f; discriminate Ai.
    + destruct u; discriminate Ai.
Qed.

Lemma shape_steps m p w f u cs c' : closable cs -> rtc step (cfg m p w f u cs) c' ->
  exists m' p' w' f' u' cs', c' = cfg m' p' w' f' u' cs' /\ closable cs' /\ moved_on m p u cs m' p' u' cs'.
Proof.
  intros Hcl Hs. remember (cfg m p w f u cs) as c eqn:E. revert m p w f u cs Hcl E. induction Hs as [c|c c1 c' H1 _ IH]; intros m p w f u cs Hcl ->.
  - exists m, p, w, f, u, cs. split; [done|]. split; [done|]. split; try done.
  - destruct (shape_step _ _ _ _ _ _ _ Hcl H1) as (m1 & p1 & w1 & f1 & u1 & cs1 & -> & Hcl1 & M1).
    destruct (IH m1 p1 w1 f1 u1 cs1 Hcl1 eq_refl) as (m' & p' & w' & f' & u' & cs' & -> & Hcl' & M2).
    exists m', p', w', f', u', cs'. split; [done|]. split; [done|]. destruct M1, M2. split.
    + by etransitivity.
    + intros Hc. rewrite mo_closed1; [by apply mo_closed0|by apply mo_sub0].
    + intros w0 Hw. by apply mo_past1, mo_past0.
    + intros HI. apply mo_parser1. by apply mo_parser0.
    + intros Hp. pose proof (mo_stays0 Hp) as E1. rewrite E1 in *. by apply mo_stays1.
    + by etransitivity.
Qed.
Lemma call_shape c : rtc step code_call c ->
  exists m p w f u cs, c = cfg m p w f u cs /\ closable cs /\ (p_past p -> is_Some (past m)).
Proof.
  intros Hs. destruct (shape_steps MStartF PIdle WIdle FIdle (ULoop []) ∅ c) as (m & p & w & f & u & cs & E & Hcl & M).
  - intros x Hx. by apply elem_of_empty in Hx.
  - exact Hs.
  - exists m, p, w, f, u, cs. split; [done|]. split; [done|]. apply (mo_parser _ _ _ _ _ _ _ _ M). done.
Qed.

Section AnyEnd.
Context (f : config) (Hf : rtc step code_call f) (Hfin : final act f).

Lemma reaches_end c : rtc step code_call c -> rtc step c f /\ (final act c -> c = f).
Proof. intros Hc. eapply (ends_the_same act owns reads gives); [apply pipe_disciplined|apply call_exclusive|done..]. Qed.
Lemma bounded : exists n, forall m c, nsteps step m code_call c -> m <= n.
Proof.
  apply rtc_nsteps in Hf as [n Hn]. exists n. intros m c Hm.
  eapply (schedules_agree act owns reads gives); [apply pipe_disciplined|apply call_exclusive|exact Hn|exact Hfin|exact Hm].
Qed.
Lemma no_crash c : ~ crashing act f -> rtc step code_call c -> ~ crashing act c.
Proof.
  intros Hn Hc Hcr. apply Hn. destruct (reaches_end c Hc) as [Hcf _]. clear Hf Hfin Hn.
  assert (HE : exclusive owns reads c).
  { clear Hcr Hcf. revert c Hc. refine (rtc_ind_r _ _ _ _); [apply call_exclusive|]. intros y z _ Hyz IH. eapply exclusive_step; [apply pipe_disciplined|exact IH|exact Hyz]. }
  clear Hc. induction Hcf as [|x y z Hxy _ IH]; [done|]. apply IH; [eapply (panic_stays act owns reads); [apply pipe_disciplined|exact HE|exact Hxy|exact Hcr]|].
  eapply exclusive_step; [apply pipe_disciplined|exact HE|exact Hxy].
Qed.
Lemma received_prefix c : rtc step code_call c -> received c `prefix_of` received f /\ (c_res ∈ closed c -> received c = received f).
Proof.
  intros Hc. destruct (reaches_end c Hc) as [Hcf _]. destruct (call_shape c Hc) as (m & p & w & ff & u & cs & -> & Hcl & _).
  destruct (shape_steps _ _ _ _ _ _ _ Hcl Hcf) as (m' & p' & w' & f' & u' & cs' & -> & _ & M).
  assert (E : forall m p w f u cs, received (cfg m p w f u cs) = got u) by (intros ? ? ? ? [] ?; done). rewrite !E.
  split; [apply (mo_got _ _ _ _ _ _ _ _ M)|]. intros Hc'. symmetry. by apply (mo_closed _ _ _ _ _ _ _ _ M).
Qed.
End AnyEnd.

Lemma end_received (oc : outcome unit) (w : option (repo * bytes)) (po : outcome unit) (g : list (bresult T L)) (c : config) : call_end write_err oc w po g c -> received c = g.
Proof. destruct oc as [[]|m|m]; [intros (cs & _ & ->)|intros (cs & _ & ->)|intros (p & ca & n & cs & _ & _ & ->)]; reflexivity. Qed.

(** A final configuration in which everything was stopped. *)
Lemma stopped_no_crash oc w p wk f u cs : ended (T := T) (L := L) (LM (MStop oc w)) -> ended (T := T) (L := L) (LP p) -> ended (LW (L := L) wk) -> ended (LF (T := T) f) -> ended (LU u) ->
  ~ crashing act (cfg (MStop oc w) p wk f u cs).
Proof.
  intros _ Hp Hw Hf Hu (l & Hl & Hpan). unfold cfg in Hl, Hpan. cbn [locals closed] in *.
  repeat (apply elem_of_cons in Hl as [->|Hl]; [|]); [..|by apply elem_of_nil in Hl]; unfold panics in Hpan; cbn [Pipeline.act] in Hpan; try done.
  - by destruct p.
  - by destruct wk.
  - by destruct f.
  - by destruct u.
Qed.

(** ** Every schedule *)
Lemma every_schedule out oc w xs : prep_err = None -> log_err = None -> (log_run text).2 = Ret tt ->
  run_top skip e o disk (log_run text).1 = (out, oc, w) -> (forall m, oc <> Panic m) -> records_for zt cl count meta orders cache0 0 out xs ->
  (exists n, forall m c, nsteps step m code_call c -> m <= n) /\
  forall c, rtc step code_call c ->
    ~ crashing act c /\ received c `prefix_of` concat xs /\ (c_res ∈ closed c -> received c = concat xs) /\
    (final act c -> all_ended c /\ received c = concat xs /\ c_res ∈ closed c /\ returned c = Some (with_write write_err oc w, w)).
Proof.
  intros Hp Hl Hpo Hrun Hnp Hrf.
  destruct (call_reaches_end zt cl count meta orders cache0 skip e o disk text prep_err log_err write_err out oc w xs Hp Hl Hrun Hrf) as (f & Hf & Hend).
  pose proof (call_end_final zt cl count meta orders cache0 skip e o disk text prep_err log_err write_err _ _ _ _ _ Hend) as Hfin.
  split; [by eapply bounded|]. intros c Hc.
  assert (Hst : exists cs, c_res ∈ cs /\ f = cfg (MStop (with_write write_err oc w) w) PStop WStop FStop (UStop (concat xs)) cs).
  { rewrite Hpo in Hend. destruct oc as [[]|m|m]; [exact Hend|exact Hend|by destruct (Hnp m)]. }
  destruct Hst as (cs & Hcs & ->). pose proof (received_prefix _ Hf Hfin c Hc) as [H1 H2].
  split; [|split; [exact H1|split; [exact H2|]]].
  - eapply no_crash; [exact Hf|exact Hfin| |exact Hc]. by apply stopped_no_crash.
  - intros Hfc. destruct (reaches_end _ Hf Hfin c Hc) as [_ E]. rewrite (E Hfc). split; [|split; [|split]]; try done.
    repeat (constructor; [exact I|]). constructor.
Qed.

(** If the call panics in the main goroutine, the caller has received records of results that were computed, in order. *)
Lemma schedule_of_panic out m w xs : prep_err = None -> log_err = None ->
  run_top skip e o disk (log_run text).1 = (out, Panic m, w) -> records_for zt cl count meta orders cache0 0 out xs ->
  forall c, rtc step code_call c -> received c `prefix_of` concat xs /\ c_res ∉ closed c /\ (final act c -> received c = concat xs /\ locals c !! 0 = Some (LM (MCrash m))).
Proof.
  intros Hp Hl Hrun Hrf c Hc.
  destruct (call_reaches_end zt cl count meta orders cache0 skip e o disk text prep_err log_err write_err out (Panic m) w xs Hp Hl Hrun Hrf) as (f & Hf & Hend).
  pose proof (call_end_final zt cl count meta orders cache0 skip e o disk text prep_err log_err write_err _ _ _ _ _ Hend) as Hfin.
  pose proof (end_received _ _ _ _ _ Hend) as Er. pose proof (received_prefix _ Hf Hfin c Hc) as [H1 H2]. rewrite Er in H1.
  split; [exact H1|]. destruct Hend as (p & ca & n & cs & _ & Hq & ->). split.
  - intros Hcr. destruct (reaches_end _ Hf Hfin c Hc) as [Hcf _]. destruct (call_shape c Hc) as (m1 & p1 & w1 & ff & u & cs1 & -> & Hcl & _).
    destruct (shape_steps _ _ _ _ _ _ _ Hcl Hcf) as (m' & p' & w' & f' & u' & cs' & E & _ & M). injection E as _ _ _ _ _ <-.
    apply (mo_sub _ _ _ _ _ _ _ _ M) in Hcr. by eapply quiet_other in Hcr.
  - intros Hfc. destruct (reaches_end _ Hf Hfin c Hc) as [_ E]. by rewrite (E Hfc).
Qed.

(** ** Failures before the log is read *)
Lemma schedule_of_prep_error m : prep_err = Some m ->
  (exists n, forall k c, nsteps step k code_call c -> k <= n) /\
  forall c, rtc step code_call c -> ~ crashing act c /\ received c = [] /\
    (final act c -> all_ended c /\ c_res ∈ closed c /\ returned c = Some (Err m, None)).
Proof.
  intros Hp.
  assert (Hf : rtc step code_call (cfg (MStop (Err m) None) PIdle WIdle FStop (UStop []) ({[ c_res ]} ∪ ({[ c_res2 ]} ∪ ∅)))).
  { unfold code_call, cfg. comm 0 3; [set_solver|]. replace (match prep_err with Some x => MCloseRes2 (Err x) None | None => MStartW end) with (MCloseRes2 (Err m) None) by (by rewrite Hp).
    clos 0; [set_solver|]. eof 3; [set_solver|]. comm 3 0; [set_solver|]. clos 0; [set_solver|]. eof 4; [set_solver|]. apply rtc_refl. }
  assert (Hfin : final act (cfg (MStop (Err m) None) PIdle WIdle FStop (UStop []) ({[ c_res ]} ∪ ({[ c_res2 ]} ∪ ∅)))).
  { apply stopped_final; [right; left; split; [done|set_solver]|right; split; [done|set_solver]|done]. }
  split; [by eapply bounded|]. intros c Hc. pose proof (received_prefix _ Hf Hfin c Hc) as [H1 _]. split; [|split].
  - eapply no_crash; [exact Hf|exact Hfin| |exact Hc]. by apply stopped_no_crash.
  - cbn in H1. by apply prefix_nil_inv in H1.
  - intros Hfc. destruct (reaches_end _ Hf Hfin c Hc) as [_ E]. rewrite (E Hfc). split; [repeat (constructor; [exact I|]); constructor|]. split; [cbn [closed]; set_solver|done].
Qed.
Lemma schedule_of_log_error m : prep_err = None -> log_err = Some m ->
  (exists n, forall k c, nsteps step k code_call c -> k <= n) /\
  forall c, rtc step code_call c -> ~ crashing act c /\ received c = [] /\
    (final act c -> all_ended c /\ c_res ∈ closed c /\ returned c = Some (Err m, None)).
Proof.
  intros Hp Hl. assert (Hq0 : quiet 0 (∅ : gset chan)) by (intros x Hx; by apply elem_of_empty in Hx).
  assert (Hf : rtc step code_call (cfg (MStop (Err m) None) PIdle WStop FStop (UStop []) (closing ∅))).
  { unfold code_call. comm 0 3; [set_solver|]. replace (match prep_err with Some x => MCloseRes2 (Err x) None | None => MStartW end) with MStartW by (by rewrite Hp).
    comm 0 2; [set_solver|]. replace (match log_err with Some x => MCloseGit (Err x) None | None => MStartP end) with (MCloseGit (Err m) None) by (by rewrite Hl).
    by apply (close_down zt cl count meta orders cache0 skip e o disk text prep_err log_err write_err (Err m) None PIdle cache0 0 [] ∅). }
  assert (Hfin : final act (cfg (MStop (Err m) None) PIdle WStop FStop (UStop []) (closing ∅))).
  { apply stopped_final; [right; left; split; [done|unfold closing; set_solver]|by left|done]. }
  split; [by eapply bounded|]. intros c Hc. pose proof (received_prefix _ Hf Hfin c Hc) as [H1 _]. split; [|split].
  - eapply no_crash; [exact Hf|exact Hfin| |exact Hc]. by apply stopped_no_crash.
  - cbn in H1. by apply prefix_nil_inv in H1.
  - intros Hfc. destruct (reaches_end _ Hf Hfin c Hc) as [_ E]. rewrite (E Hfc). split; [repeat (constructor; [exact I|]); constructor|]. split; [cbn [closed]; unfold closing; set_solver|done].
Qed.

(** ** A log that cannot be parsed to its end *)
Lemma schedule_of_parser_failure out w xs : prep_err = None -> log_err = None -> (log_run text).2 <> Ret tt ->
  run_top skip e o disk (log_run text).1 = (out, Ret tt, Some w) -> records_for zt cl count meta orders cache0 0 out xs ->
  (forall c, rtc step code_call c -> parser_panics c -> checkpoint_passed c w) /\
  exists c, rtc step code_call c /\ parser_panics c /\ received c = concat xs /\ c_res ∈ closed c /\ returned c = Some (with_write write_err (Ret tt) (Some w), Some w).
Proof.
  intros Hp Hl Hpo Hrun Hrf.
  destruct (call_reaches_end zt cl count meta orders cache0 skip e o disk text prep_err log_err write_err out (Ret tt) (Some w) xs Hp Hl Hrun Hrf) as (f & Hf & Hend).
  pose proof (call_end_final zt cl count meta orders cache0 skip e o disk text prep_err log_err write_err _ _ _ _ _ Hend) as Hfin.
  destruct Hend as (cs & Hcs & ->). split.
  - intros c Hc [m Hpp]. destruct (call_shape c Hc) as (m1 & p1 & w1 & ff & u & cs1 & -> & Hcl & Hpast). cbn in Hpp. injection Hpp as ->.
    destruct (Hpast I) as [w0 Hw0]. destruct (reaches_end _ Hf Hfin _ Hc) as [Hcf _].
    destruct (shape_steps _ _ _ _ _ _ _ Hcl Hcf) as (m' & p' & w' & f' & u' & cs' & E & _ & M). injection E as <- _ _ _ _ _.
    pose proof (mo_past _ _ _ _ _ _ _ _ M w0 Hw0) as E0. cbn in E0. injection E0 as E0. subst w0.
    unfold checkpoint_passed. cbn [locals cfg lookup list_lookup]. destruct m1; try discriminate Hw0; by injection Hw0 as ->.
  - eexists. split; [exact Hf|]. split; [|done]. unfold parser_panics, p_end. destruct (log_run text).2 as [[]|m|m]; [done|by exists m..].
Qed.
End Pipe.
