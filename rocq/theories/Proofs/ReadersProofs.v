(** * A caller of CodeByCommit with a goroutine for each commit: proofs for C71 and C85 *)
From Verif.Model Require Import Base GoStrings IncBlame LogParser ParentsGraph Process Msgp Checkpoint CheckpointFS CommitMeta FileInfo CodeInfo Net Pipeline Callers.
From Verif.Spec Require Import Delivery Callers.
From Verif.Proofs Require Import NetProofs PipelineProofs PipelineMore PipelineCrash Sink CallersProofs.
From Coq Require Import Lia.

Section Readers.
Context {T L : Type} (zt : T) (cl : classifiers L).
Context (count : bytes -> bytes -> bytes -> list (Z * line_type) * totals) (meta : gmap bytes (mcommit T)).
Context (orders : nat -> list (bytes * blame) -> list (bytes * blame)) (cache0 : gmap bytes bytes).
Context (skip : bytes -> pres unit) (e : env) (o : popts) (disk : fs) (text : bytes) (prep_err log_err write_err : option bytes).
Context (k : nat).
Notation record := (bresult T L).
Notation gotten := (list (mcommit T * list record)).
Notation clocal := (@clocal T L).
Notation act := (act zt cl count meta orders cache0 skip e o disk text prep_err log_err write_err).
Notation rd_act := (readers_act zt cl count meta orders cache0 skip e o disk text prep_err log_err write_err).
Notation rd_call := (readers_call (T := T) (L := L) prep_err k).
Notation rd_step := (step rd_act).

(** ** Ownership *)
Definition rowns (l : clocal) (c : chan) : Prop := match l with BL l => owns l c | BR (RLoop _) | BR (RGo _ _ _) => c.1 = 11 | _ => False end.
Definition rreads (l : clocal) (c : chan) : Prop :=
  match l with
  | BL l => reads l c
  | BR (RLoop _) | BR (RGo _ _ _) => c.1 = 4
  | BR (RIdle n) | BR (RRecs n _ _) => c = (11, n) \/ c = (5, n)
  | _ => False
  end.
Lemma rd_disciplined : disciplined rd_act rowns rreads gives.
Proof.
  pose proof (pipe_disciplined zt cl count meta orders cache0 skip e o disk text prep_err log_err write_err) as [D1 D2 D3].
  assert (HL : forall l, rd_act (BL l) = lift_act (act l) \/ exists oc w, l = LM (MCloseRes2 oc w) /\ rd_act (BL l) = Close c_res2 (BL (LM (MStop oc w)))).
  { intros l. destruct l as [m|p|w|f|u|]; try (by left). destruct m; try (by left). right. by eexists _, _. }
  assert (Hbad : forall d, ~ rowns (BL LBad) d) by (intros d Hd; by apply elem_of_nil in Hd).
  assert (Hbad' : forall d, ~ rreads (BL LBad) d) by (intros d Hd; by apply elem_of_nil in Hd).
  split.
  - intros [l|c|q|r] ch v kk A; [| discriminate A.. |].
    + destruct (HL l) as [E|(oc & w & -> & E)]; rewrite E in A; [|discriminate A]. destruct (act l) as [ch' v' k'|ch' k'|ch' k'| |] eqn:Al; try discriminate A. injection A as <- <- <-.
      exact (D1 _ _ _ _ Al).
    + destruct r; try discriminate A. injection A as <- <- <-. split; [done|]. split; [intros d Hd; by apply elem_of_nil in Hd|]. split; [|done].
      intros d Hd. split; [exact Hd|]. intros Hg. by apply elem_of_nil in Hg.
  - intros [l|c|q|r] ch kr A; [| discriminate A.. |].
    + destruct (HL l) as [E|(oc & w & -> & E)]; rewrite E in A; [|discriminate A]. destruct (act l) as [ch' v' k'|ch' k'|ch' k'| |] eqn:Al; try discriminate A. injection A as <- <-.
      exact (D2 _ _ _ Al).
    + destruct r as [g|c n g|g|n|n c rs|n c rs]; try discriminate A; injection A as <- <-.
      * split; [done|]. split; [intros v d Hd; left; destruct v; try (by apply Hbad in Hd); exact Hd|]. split; [intros d []|].
        intros [[]|] d Hd; try (by apply Hbad' in Hd); [exact Hd|destruct Hd].
      * split; [by left|]. split; [intros v d Hd; destruct v; try (by apply Hbad in Hd); destruct Hd|]. split; [intros d Hd; by apply Hbad in Hd|].
        intros [[]|] d Hd; try (by apply Hbad' in Hd); exact Hd.
      * split; [by right|]. split; [intros v d Hd; destruct v; try (by apply Hbad in Hd); destruct Hd|]. split; [intros d []|].
        intros [[]|] d Hd; try (by apply Hbad' in Hd); [exact Hd|destruct Hd].
  - intros [l|c|q|r] ch kk A; [| discriminate A.. |destruct r; discriminate A].
    destruct (HL l) as [E|(oc & w & -> & E)]; rewrite E in A.
    + destruct (act l) as [ch' v' k'|ch' k'|ch' k'| |] eqn:Al; try discriminate A. injection A as <- <-. exact (D3 _ _ _ Al).
    + injection A as <- <-. split; [unfold rowns, owns; apply (bool_decide_unpack _); vm_compute; exact I|]. split; [intros d Hd; by apply elem_of_nil in Hd|intros d Hd; exact Hd].
Qed.

(** The goroutines of the library and of the caller. *)
Definition rcfg (m : mstate) (p : pstate) (w : wstate) (r : rstate) (rds : list clocal) (cs : gset chan) : config chan clocal :=
  Config (BL (LM m) :: BL (LP p) :: BL (LW w) :: BR r :: rds) cs.
Lemma idle_lookup i (l : clocal) : map (fun n => BR (RIdle n)) (seq 0 k) !! i = Some l -> l = BR (RIdle i).
Proof.
  change (map ?f ?l) with (f <$> l). rewrite list_lookup_fmap. destruct (seq 0 k !! i) as [n|] eqn:E; [|discriminate]. apply lookup_seq in E as [-> _]. cbn. by intros [= <-].
Qed.
Lemma rd_exclusive : exclusive rowns rreads rd_call.
Proof.
  unfold readers_call. intros i j l l' Hij Hi Hj.
  assert (Hidle : forall i l, (BL (LM (match prep_err with Some x => MCloseRes2 (Err x) None | None => MStartW end)) :: BL (LP PIdle) :: BL (LW WIdle) :: BR (RLoop []) :: map (fun n => BR (RIdle n)) (seq 0 k) : list clocal) !! S (S (S (S i))) = Some l -> l = BR (RIdle i))
    by (intros i0 l0 E; cbn in E; by apply idle_lookup).
  assert (Hfive : forall d : chan, (d = (11, i - 4) \/ d = (5, i - 4)) -> d.1 = 11 \/ d.1 = 5) by (intros d [->| ->]; auto).
  destruct i as [|[|[|[|i]]]]; destruct j as [|[|[|[|j]]]]; try done;
    try (apply Hidle in Hi as ->); try (apply Hidle in Hj as ->); try (cbn in Hi; injection Hi as <-); try (cbn in Hj; injection Hj as <-);
    unfold rowns, rreads, owns, reads; 
    (split; intros d Hd Hd'; destruct prep_err; try (exact Hd); try (exact Hd'); cbn in Hd, Hd';
     rewrite ?elem_of_cons, ?elem_of_nil in Hd; rewrite ?elem_of_cons, ?elem_of_nil in Hd'; try lia;
     try (destruct Hd as [->| ->]; cbn in Hd'; lia); try (destruct Hd' as [->| ->]; cbn in Hd; lia);
     (destruct Hd as [->| ->]; destruct Hd' as [E|E]; injection E as E; lia)).
Qed.

(** ** One schedule *)
Definition reader_of (g : gotten) (n : nat) : clocal := BR (match g !! n with Some (c, x) => RDone n c x | None => RIdle n end).
Definition readers_of (g : gotten) : list clocal := map (reader_of g) (seq 0 k).
Definition r_tl (g : gotten) : list clocal := BR (RLoop (map fst g)) :: readers_of g.
Definition r_ok (g : gotten) (c : mcommit T) (x : list record) : Prop := length g < k.
Lemma readers_lookup g n : n < k -> readers_of g !! n = Some (reader_of g n).
Proof. intros Hn. unfold readers_of. change (map ?f ?l) with (f <$> l). rewrite list_lookup_fmap, lookup_seq_lt by done. done. Qed.
Lemma readers_length g : length (readers_of g) = k.
Proof. unfold readers_of. by rewrite map_length, seq_length. Qed.
Lemma readers_snoc g c x : length g < k -> <[ length g := BR (RDone (length g) c x) ]> (readers_of g) = readers_of (g ++ [(c, x)]).
Proof.
  intros Hk. apply list_eq. intros i. destruct (decide (i < k)) as [Hi|Hi].
  - rewrite (readers_lookup (g ++ [(c, x)]) i Hi). destruct (decide (i = length g)) as [->|Hne].
    + rewrite list_lookup_insert by (by rewrite readers_length). unfold reader_of. by rewrite list_lookup_middle.
    + rewrite list_lookup_insert_ne by done. rewrite readers_lookup by done. unfold reader_of. f_equal. f_equal. destruct (decide (i < length g)) as [Hl|Hl].
      * by rewrite lookup_app_l by done.
      * rewrite (lookup_ge_None_2 g i) by lia. rewrite lookup_ge_None_2; [done|]. rewrite app_length. cbn. lia.
  - rewrite !lookup_ge_None_2; [done|rewrite readers_length; lia|rewrite insert_length, readers_length; lia].
Qed.
Ltac comm i j := (eapply rtc_l; [refine (step_comm _ _ _ i j _ _ _ _ _ _ _ _ _ _ _); [reflexivity|reflexivity|reflexivity|reflexivity|]|]; cbn [insert list_insert]).
Ltac eof j := (eapply rtc_l; [refine (step_eof _ _ _ j _ _ _ _ _ _); [reflexivity|reflexivity|]|]; cbn [insert list_insert]).
Ltac clos i := (eapply rtc_l; [refine (step_close _ _ _ i _ _ _ _ _ _); [reflexivity|reflexivity|]|]; cbn [insert list_insert]).

Lemma reader_reads m p n x ca r c rs rds cs : c_blames n ∉ cs -> rds !! n = Some (BR (RRecs n c rs)) ->
  rtc rd_step (rcfg m p (WBlames n x ca) r rds cs) (rcfg m p (WLoop ca (S n)) r (<[ n := BR (RDone n c (rs ++ x)) ]> rds) ({[ c_blames n ]} ∪ cs)).
Proof.
  intros Hn. revert rs rds. induction x as [|a x IH]; intros rs rds Hr.
  - rewrite app_nil_r. unfold rcfg. clos 2; [done|].
    eapply rtc_l; [refine (step_eof _ _ _ (4 + n) _ _ _ _ _ _); [cbn; exact Hr|reflexivity|set_solver]|]. cbn [insert list_insert Nat.add]. apply rtc_refl.
  - replace (rs ++ a :: x) with ((rs ++ [a]) ++ x) by (by rewrite <- app_assoc). unfold rcfg at 1.
    eapply rtc_l; [refine (step_comm _ _ _ 2 (4 + n) _ _ _ _ _ _ _ _ _ _ _); [reflexivity|reflexivity|cbn; exact Hr|reflexivity|done]|]. cbn [insert list_insert Nat.add].
    eapply rtc_transitive; [apply (IH (rs ++ [a]) (<[n := BR (RRecs n c (rs ++ [a]))]> rds)); apply list_lookup_insert; by eapply lookup_lt_Some|].
    match goal with |- rtc _ (rcfg _ _ _ _ ?l _) (rcfg _ _ _ _ ?l' _) => assert (El : l = l') by apply list_insert_insert; rewrite El end. apply rtc_refl.
Qed.
Lemma rd_delivers : delivers rd_act r_tl r_ok.
Proof.
  intros m p c x ca g cs Hq Hk. unfold r_ok in Hk. unfold scfg, r_tl. comm 2 3; [by eapply quiet_other|].
  assert (Hi : readers_of g !! length g = Some (BR (RIdle (length g)))) by (rewrite readers_lookup by done; unfold reader_of; by rewrite lookup_ge_None_2).
  eapply rtc_l; [refine (step_comm _ _ _ 3 (4 + length g) _ _ _ _ _ _ _ _ _ _ _); [reflexivity|reflexivity|cbn; exact Hi|reflexivity|by eapply quiet_other]|]. cbn [insert list_insert Nat.add].
  eapply rtc_transitive; [apply (reader_reads m p (length g) x ca (RLoop (map fst g ++ [c])) c [] (<[length g := BR (RRecs (length g) c [])]> (readers_of g)) cs (quiet_blames _ _ Hq)); apply list_lookup_insert; by rewrite readers_length|].
  match goal with |- rtc _ (rcfg _ _ _ _ ?l _) _ => assert (El : l = readers_of (g ++ [(c, x)])) end.
  { rewrite <- (readers_snoc g c x Hk). apply list_insert_insert. }
  rewrite El. unfold rcfg. rewrite map_app. apply rtc_refl.
Qed.
Lemma rd_HM m : (forall oc w, m <> MCloseRes2 oc w) -> rd_act (BL (LM m)) = lift_act (m_act skip e o disk prep_err log_err write_err m).
Proof. intros H. destruct m; try done. by destruct (H oc w). Qed.
Notation rscfg := (scfg r_tl).
Lemma rd_close_down oc w p ca n g cs : quiet n cs ->
  rtc rd_step (rscfg (MCloseGit oc w) p (WLoop ca n) g cs) (rcfg (MStop oc w) p WStop (RStop (map fst g)) (readers_of g) (bc_closing cs)).
Proof.
  intros Hq. unfold scfg, r_tl. assert (Hn : forall c : chan, c.1 <> 0 -> c.1 <> 5 -> c ∉ cs) by (intros c H1 H2; by eapply quiet_other).
  clos 0; [by apply Hn|]. eof 2; [set_solver|]. comm 2 0; [rewrite elem_of_union, elem_of_singleton; intros [E|E]; [discriminate E|by apply Hn in E]|].
  clos 0; [rewrite elem_of_union, elem_of_singleton; intros [E|E]; [discriminate E|by apply Hn in E]|].
  eof 3; [set_solver|]. apply rtc_refl.
Qed.
Lemma rd_close_run oc w po ca n g cs : quiet n cs ->
  rtc rd_step (rscfg (MWait oc w) (PDone po) (WLoop ca n) g cs) (rcfg (MStop oc w) (p_end po) WStop (RStop (map fst g)) (readers_of g) (bc_closing cs)).
Proof.
  intros Hq. unfold scfg at 1. comm 1 0; [by eapply quiet_other|]. destruct po; cbn [p_end]; by apply (rd_close_down oc w _ ca n g cs).
Qed.
Lemma rd_start : prep_err = None -> log_err = None ->
  rtc rd_step rd_call (rscfg (MLoop None) (PSend (log_run text).1 (log_run text).2) (WLoop cache0 0) [] ∅).
Proof.
  intros Hp Hl. unfold readers_call, scfg, r_tl. replace (match prep_err with Some x => MCloseRes2 (Err x) None | None => MStartW end) with MStartW by (by rewrite Hp).
  comm 0 2; [set_solver|]. replace (match log_err with Some x => MCloseGit (Err x) None | None => MStartP end) with MStartP by (by rewrite Hl). comm 0 1; [set_solver|]. apply rtc_refl.
Qed.
Lemma closing_idle n cs m : quiet n cs -> c_start_r m ∉ bc_closing cs.
Proof.
  intros Hq. unfold bc_closing. rewrite !elem_of_union, !elem_of_singleton. intros [E|[E|E]]; [discriminate E..|]. revert E. by eapply quiet_other.
Qed.

Lemma rd_reaches_end out oc w ys : prep_err = None -> log_err = None ->
  run_top skip e o disk (log_run text).1 = (out, oc, w) -> (forall m, oc <> Panic m) -> commits_for zt cl count meta orders cache0 0 out ys -> length ys <= k ->
  exists cs, c_res2 ∈ cs /\ (forall n, c_start_r n ∉ cs) /\
    rtc rd_step rd_call (rcfg (MStop (with_write write_err oc w) w) (p_end (log_run text).2) WStop (RStop (map fst ys)) (readers_of ys) cs).
Proof.
  intros Hp Hl Hrun Hnp Hcf Hk. pose proof (rd_start Hp Hl) as Hstart. clear Hp Hl. unfold run_top in Hrun.
  apply goes_iff in Hcf as [ce Hgo]. set (po := (log_run text).2) in *.
  assert (Hall : all_ok r_ok [] ys) by (intros pre c x post ->; unfold r_ok; rewrite app_length in *; cbn [length app] in *; lia).
  assert (Hres : forall cs, c_res2 ∈ bc_closing cs) by (intros cs; unfold bc_closing; set_solver).
  destruct (log_run text).1 as [|c cs].
  - injection Hrun as <- <- <-. assert (ys = []) as -> by (by inversion Hgo). eexists. split; [apply Hres|]. split; [|eapply rtc_transitive; [exact Hstart|]; eapply rtc_transitive; [apply (first_end zt cl count meta orders cache0 skip e o disk text prep_err log_err write_err rd_act rd_HM (fun _ => eq_refl) (fun _ => eq_refl) r_tl r_ok rd_delivers); set_solver|]].
    2: { cbn [on_end]. eapply (rd_close_run (Ret tt) None po cache0 0 []). by apply quiet_commits. }
    intros n. apply (closing_idle 0). by apply quiet_commits.
  - assert (Hq0 : quiet 0 (∅ : gset chan)) by (intros x Hx; by apply elem_of_empty in Hx).
    destruct (init_checkpoints skip o disk) as [r|m|m] eqn:Ei.
    + destruct (process_log_out e (pst_init r) (c :: cs)) as [rs Hrs].
      assert (Hout : out = rs /\ exists oc', log_end write_err (process_log e (pst_init r) (c :: cs)) = MWait oc' w /\ oc' = with_write write_err oc w).
      { unfold log_end. destruct (process_log e (pst_init r) (c :: cs)) as [s' [[]|m|m]]; cbn [fst snd] in *.
        - cbn [after_sends]. destruct (decide (s_last s' = [])); injection Hrun as <- <- <-; (split; [by rewrite Hrs|]); [by edestruct Hnp|]. eexists. split; [reflexivity|].
          cbn [with_write]. by destruct write_err.
        - injection Hrun as <- <- <-. split; [by rewrite Hrs|]. eexists. split; [reflexivity|]. done.
        - injection Hrun as <- <- <-. by edestruct Hnp. }
      destruct Hout as [-> (oc' & Hle & ->)].
      destruct (run_sink zt cl count meta orders cache0 skip e o disk text prep_err log_err write_err rd_act rd_HM (fun _ => eq_refl) (fun _ => eq_refl) r_tl r_ok rd_delivers
        None (c :: cs) po (pst_init r) rs cache0 [] ∅ ys ce) as (p & ca & cl1 & HL & Hq & HR);
        [right; rewrite Ei; split; [done|split; done]|exact Hq0|set_solver|exact Hrs|exact Hgo|exact Hall|].
      unfold loop_ends in HL. rewrite Hle in HL, HR. subst p. eexists. split; [apply Hres|]. split; [|eapply rtc_transitive; [exact Hstart|]; eapply rtc_transitive; [exact HR|]; by apply rd_close_run].
      intros n. by eapply closing_idle.
    + injection Hrun as <- <- <-. assert (ys = []) as -> by (by inversion Hgo).
      destruct (drain_sink zt cl count meta orders cache0 skip e o disk text prep_err log_err write_err rd_act rd_HM (fun _ => eq_refl) (fun _ => eq_refl) r_tl r_ok rd_delivers m cs po (WLoop cache0 0) [] ∅ 0 Hq0) as (cl1 & Hq1 & HDr); [set_solver|].
      eexists. split; [apply Hres|]. split; [|eapply rtc_transitive; [exact Hstart|]; eapply rtc_transitive; [apply (first_commit skip e o disk text prep_err log_err write_err rd_act rd_HM (fun _ => eq_refl) r_tl); set_solver|]; unfold on_commit; rewrite Ei; cbn [omap_o obind];
        eapply rtc_transitive; [exact HDr|]; by apply rd_close_run].
      intros n. by eapply closing_idle.
    + injection Hrun as <- <- <-. by edestruct Hnp.
Qed.

(** ** What the caller has only grows *)
Definition r_got (r : @rstate T L) : option (list (mcommit T)) := match r with RLoop g | RStop g => Some g | RGo c _ g => Some (g ++ [c]) | _ => None end.
Definition r_has (r : @rstate T L) : option (mcommit T * list record) := match r with RRecs _ c rs | RDone _ c rs => Some (c, rs) | _ => None end.
Definition r_le (r r' : @rstate T L) : Prop :=
  (forall g, r_got r = Some g -> exists g', r_got r' = Some g' /\ g `prefix_of` g') /\
  (forall c rs, r_has r = Some (c, rs) -> exists rs', r_has r' = Some (c, rs') /\ rs `prefix_of` rs').
Lemma r_le_refl r : r_le r r.
Proof. split; [intros g Hg; by exists g|intros c rs H; by exists rs]. Qed.
Lemma r_le_trans a b d : r_le a b -> r_le b d -> r_le a d.
Proof.
  intros [H1 H2] [H3 H4]. split.
  - intros g Hg. destruct (H1 g Hg) as (g' & Hg' & P). destruct (H3 g' Hg') as (g'' & Hg'' & P'). exists g''. split; [done|by etransitivity].
  - intros c rs Hr. destruct (H2 c rs Hr) as (r1 & Hr1 & P). destruct (H4 c r1 Hr1) as (r2 & Hr2 & P'). exists r2. split; [done|by etransitivity].
Qed.
Lemma reader_step c c' i r : rd_step c c' -> locals c !! i = Some (BR r) ->
  (exists r', locals c' !! i = Some (BR r') /\ r_le r r') \/ locals c' !! i = Some (BL LBad).
Proof.
  intros Hs Hi. destruct (slot_step _ c c' i (BR r) Hs Hi) as [E|[(ch & v & kk & A & E & _)|[(ch & kr & v & A & E & _)|(ch & kk & A & _)]]].
  - left. exists r. split; [done|apply r_le_refl].
  - destruct r as [g|c0 n g|g|n|n c0 rs|n c0 rs]; try discriminate A. injection A as <- <- <-. left. eexists. split; [exact E|]. split; [|done].
    intros g' [= <-]. by exists (g ++ [c0]).
  - destruct r as [g|c0 n g|g|n|n c0 rs|n c0 rs]; try discriminate A; injection A as <- <-.
    + destruct v as [[| | |c1 n1|]|]; try (by right); left; (eexists; split; [exact E|]); (split; [|done]); intros g' [= <-].
      * exists (g ++ [c1]). split; [done|by eexists].
      * by exists g.
    + destruct v as [[| | |c1 n1|]|]; try (by right); left; (eexists; split; [exact E|]); (split; done).
    + destruct v as [[| | | |r]|]; try (by right); left; (eexists; split; [exact E|]); (split; [done|]); intros c1 rs1 [= <- <-].
      * exists (rs ++ [r]). split; [done|by eexists].
      * by exists rs.
  - destruct r; discriminate A.
Qed.
Lemma reader_steps c c' i r : rtc rd_step c c' -> locals c !! i = Some (BR r) ->
  (exists r', locals c' !! i = Some (BR r') /\ r_le r r') \/ locals c' !! i = Some (BL LBad).
Proof.
  intros Hs. revert r. induction Hs as [c|c c1 c' H1 Hr IH]; intros r Hi; [left; exists r; split; [done|apply r_le_refl]|].
  destruct (reader_step c c1 i r H1 Hi) as [(r1 & E1 & P1)|E1].
  - destruct (IH r1 E1) as [(s' & E' & P')|E']; [left; exists s'; split; [done|by eapply r_le_trans]|by right].
  - right. clear IH H1 Hi. induction Hr as [|c1 c2 c' H2 _ IH]; [done|]. apply IH.
    destruct (slot_step _ c1 c2 i (BL LBad) H2 E1) as [E|[(ch & v & kk & A & _)|[(ch & kr & v & A & E & _)|(ch & kk & A & _)]]]; [done|discriminate A..].
Qed.

(** ** Every schedule *)
Lemma end_lookup oc w ys cs i l : locals (rcfg (MStop oc w) PStop WStop (RStop (map fst ys)) (readers_of ys) cs) !! i = Some l ->
  rd_act l = Stop \/ exists n kr, rd_act l = Recv (c_start_r n) kr.
Proof.
  destruct i as [|[|[|[|i]]]]; cbn [rcfg locals]; [intros [= <-]; by left..|]. cbn [lookup list_lookup]. intros Hl.
  assert (Hi : i < k) by (apply lookup_lt_Some in Hl; by rewrite readers_length in Hl). rewrite readers_lookup in Hl by done. injection Hl as <-. unfold reader_of.
  destruct (ys !! i) as [[c x]|]; [by left|right]. by eexists _, _.
Qed.
Lemma rd_final oc w ys cs : (forall n, c_start_r n ∉ cs) -> final rd_act (rcfg (MStop oc w) PStop WStop (RStop (map fst ys)) (readers_of ys) cs).
Proof.
  intros Hcs c' Hs. pose proof (end_lookup oc w ys cs) as Hend. unfold rcfg in *. cbn [locals] in Hend.
  inversion Hs as [ls cl' i j l l' c v kk kr Hi Ai Hj Aj Hc|ls cl' j l c kr Hj Aj Hc|ls cl' i l c kk Hi Ai Hc]; subst.
  - apply Hend in Hi as [E|(n & kr' & E)]; congruence.
  - apply Hend in Hj as [E|(n & kr' & E)]; [congruence|]. rewrite E in Aj. injection Aj as <- _. by apply (Hcs n).
  - apply Hend in Hi as [E|(n & kr' & E)]; congruence.
Qed.
Lemma rd_every_schedule out oc w ys : prep_err = None -> log_err = None -> (log_run text).2 = Ret tt ->
  run_top skip e o disk (log_run text).1 = (out, oc, w) -> (forall m, oc <> Panic m) -> commits_for zt cl count meta orders cache0 0 out ys -> length ys <= k ->
  (exists n, forall m c, nsteps rd_step m rd_call c -> m <= n) /\ (exists c, rtc rd_step rd_call c /\ final rd_act c) /\
  forall c, rtc rd_step rd_call c ->
    ~ crashing rd_act c /\ commits_taken c `prefix_of` map fst ys /\
    (forall n m rs, reader_has c n = Some (m, rs) -> exists rs', ys !! n = Some (m, rs') /\ rs `prefix_of` rs') /\
    (final rd_act c -> readers_done c /\ commits_taken c = map fst ys /\ (forall n y, ys !! n = Some y -> reader_has c n = Some y /\ reader_done c n) /\
       c_res2 ∈ closed c /\ call_returned c = Some (with_write write_err oc w, w)).
Proof.
  intros Hp Hl Hpo Hrun Hnp Hcf Hk. destruct (rd_reaches_end out oc w ys Hp Hl Hrun Hnp Hcf Hk) as (cs & Hcs & Hidle & Hreach). rewrite Hpo in Hreach. cbn [p_end] in Hreach.
  pose proof (rd_final (with_write write_err oc w) w ys cs Hidle) as Hfin. pose proof (end_lookup (with_write write_err oc w) w ys cs) as Hend.
  set (f := rcfg (MStop (with_write write_err oc w) w) PStop WStop (RStop (map fst ys)) (readers_of ys) cs) in *.
  split; [|split; [by exists f|]].
  - apply rtc_nsteps in Hreach as [n Hn]. exists n. intros m c Hm. eapply (schedules_agree rd_act rowns rreads gives); [apply rd_disciplined|apply rd_exclusive|exact Hn|exact Hfin|exact Hm].
  - intros c Hc. destruct (ends_the_same rd_act rowns rreads gives rd_disciplined _ _ c rd_exclusive Hreach Hfin Hc) as [Hcf' Heq].
    assert (Hf3 : locals f !! 3 = Some (BR (RStop (map fst ys)))) by done.
    assert (Hfn : forall n l, locals f !! (4 + n) = Some l -> n < k /\ l = reader_of ys n).
    { intros n l El. cbn [f rcfg locals Nat.add lookup list_lookup] in El. assert (Hi : n < k) by (apply lookup_lt_Some in El; by rewrite readers_length in El). rewrite readers_lookup in El by done. by injection El. }
    assert (Hfn' : forall n, n < k -> locals f !! (4 + n) = Some (reader_of ys n)) by (intros n Hn; cbn [f rcfg locals Nat.add lookup list_lookup]; by apply readers_lookup).
    split; [|split; [|split]].
    + intros Hcr. assert (Hbad : crashing rd_act f).
      { assert (HE : exclusive rowns rreads c).
        { clear -Hc. pose proof rd_exclusive as H0. induction Hc as [|x y z Hxy _ IH]; [done|]. apply IH. eapply exclusive_step; [apply rd_disciplined|exact H0|exact Hxy]. }
        clear -Hcf' HE Hcr. induction Hcf' as [|x y z Hxy _ IH]; [done|]. apply IH; [|eapply exclusive_step; [apply rd_disciplined|exact HE|exact Hxy]].
        eapply (panic_stays rd_act rowns rreads); [apply rd_disciplined|exact HE|exact Hxy|exact Hcr]. }
      destruct Hbad as (l & Hin & Hpan). apply elem_of_list_lookup in Hin as [i Hin]. unfold panics in Hpan. apply Hend in Hin as [E|(n & kr & E)]; by rewrite E in Hpan.
    + unfold commits_taken. destruct (locals c !! 3) as [[| | |r]|] eqn:E3; try apply prefix_nil.
      assert (Hg : forall g, r_got r = Some g -> g `prefix_of` map fst ys).
      { intros g Hg. destruct (reader_steps _ _ 3 r Hcf' E3) as [(r' & E' & [P _])|E']; rewrite Hf3 in E'; [|discriminate E']. injection E' as <-. destruct (P g Hg) as (g' & [= <-] & P'). exact P'. }
      destruct r; try apply prefix_nil; by apply Hg.
    + intros n m rs Hr. unfold reader_has in Hr. destruct (locals c !! (4 + n)) as [[| | |r]|] eqn:E3; try discriminate Hr.
      assert (Hh : r_has r = Some (m, rs)) by (destruct r; try discriminate Hr; exact Hr).
      destruct (reader_steps _ _ (4 + n) r Hcf' E3) as [(r' & E' & [_ P])|E']; apply Hfn in E' as [Hn E']; [|unfold reader_of in E'; discriminate E'].
      destruct (P m rs Hh) as (rs' & Hr' & Pr). unfold reader_of in E'. injection E' as ->. destruct (ys !! n) as [[c1 x1]|]; [|discriminate Hr']. injection Hr' as -> ->. by exists rs'.
    + intros Hfc. rewrite (Heq Hfc). split; [done|]. split; [done|]. split; [|split; [done|done]].
      intros n [c1 x1] Hy. assert (Hn : n < k) by (apply lookup_lt_Some in Hy; lia). unfold reader_has, reader_done. rewrite (Hfn' n Hn). unfold reader_of. by rewrite Hy.
Qed.
End Readers.
