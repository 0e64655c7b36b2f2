(** * The schedules of a Branches call: proofs for C23 *)
From Verif.Model Require Import Base GoStrings GoSort ParentsGraph Branches Net BranchPool.
From Verif.Spec Require Import BranchDelivery.
From Coq Require Import Lia.

Section Pool.
Context (pre_err : option bytes) (dflt : outcome (option branch)) (names_err : option bytes).
Context (work : item -> outcome (option branch)) (items : list item) (n : nat).
Notation act := (bact dflt names_err work items n).
Notation step := (step act).
Notation after_start := (after_start dflt names_err).
Notation after_default := (after_default names_err).
Notation start_from := (start_from n).
Notation on_item := (on_item work).

Definition shape (m : bm) (p : bp) (f : bf) (u : bu) (ws : list bw) (cl : gset bchan) : bconfig :=
  Config (LBM m :: LBP p :: LBF f :: LBU u :: map LBW ws) cl.

(** The steps that there are. *)
Inductive pstep : bm -> bp -> bf -> bu -> list bw -> gset bchan -> bconfig -> Prop :=
| p_start_f p u ws cl : b_start_f ∉ cl -> pstep BStartF p BFIdle u ws cl (shape after_start p BFLoop u ws cl)
| p_default b p u ws cl : b_res2 ∉ cl -> pstep (BDefault b) p BFLoop u ws cl (shape after_default p (BFSend b) u ws cl)
| p_start_p f u ws cl : b_start_p ∉ cl -> pstep BStartP BPIdle f u ws cl (shape (start_from 0) (BPSend items) f u ws cl)
| p_start_w i k p f u ws cl : b_start_w i ∉ cl -> ws !! k = Some (BWIdle i) -> pstep (BStartW i) p f u ws cl (shape (start_from (S i)) p f u (<[ k := BWLoop ]> ws) cl)
| p_item i l k m f u ws cl : b_work ∉ cl -> ws !! k = Some BWLoop -> pstep m (BPSend (i :: l)) f u ws cl (shape m (BPSend l) f u (<[ k := on_item i ]> ws) cl)
| p_close_work m f u ws cl : b_work ∉ cl -> pstep m (BPSend []) f u ws cl (shape m BPStop f u ws ({[ b_work ]} ∪ cl))
| p_eof_work k m p f u ws cl : b_work ∈ cl -> ws !! k = Some BWLoop -> pstep m p f u ws cl (shape m p f u (<[ k := BWDone ]> ws) cl)
| p_record b k m p u ws cl : b_res2 ∉ cl -> ws !! k = Some (BWSend b) -> pstep m p BFLoop u ws cl (shape m p (BFSend b) u (<[ k := BWLoop ]> ws) cl)
| p_wg k j p f u ws cl : b_wg ∉ cl -> ws !! k = Some BWDone -> pstep (BWait j) p f u ws cl (shape (wait_for (pred j)) p f u (<[ k := BWStop ]> ws) cl)
| p_close_res2 oc p f u ws cl : b_res2 ∉ cl -> pstep (BCloseRes2 oc) p f u ws cl (shape (BWaitF oc) p f u ws ({[ b_res2 ]} ∪ cl))
| p_eof_res2 m p u ws cl : b_res2 ∈ cl -> pstep m p BFLoop u ws cl (shape m p BFDone u ws cl)
| p_done oc p u ws cl : b_done ∉ cl -> pstep (BWaitF oc) p BFDone u ws cl (shape (BCloseRes oc) p BFStop u ws cl)
| p_close_res oc p f u ws cl : b_res ∉ cl -> pstep (BCloseRes oc) p f u ws cl (shape (BStop oc) p f u ws ({[ b_res ]} ∪ cl))
| p_deliver b g m p ws cl : b_res ∉ cl -> pstep m p (BFSend b) (BULoop g) ws cl (shape m p BFLoop (BULoop (g ++ [b])) ws cl)
| p_eof_res g m p f ws cl : b_res ∈ cl -> pstep m p f (BULoop g) ws cl (shape m p f (BUStop g) ws cl)
(* closed channels that are never closed *)
| p_other m p f u ws cl c' c : c ∈ cl -> c <> b_work -> c <> b_res2 -> c <> b_res -> pstep m p f u ws cl c'.

Lemma shape_lookup m p f u ws cl i l : locals (shape m p f u ws cl) !! i = Some l ->
  (i = 0 /\ l = LBM m) \/ (i = 1 /\ l = LBP p) \/ (i = 2 /\ l = LBF f) \/ (i = 3 /\ l = LBU u) \/ exists k w, i = 4 + k /\ l = LBW w /\ ws !! k = Some w.
Proof.
  cbn [locals shape]. destruct i as [|[|[|[|k]]]]; [intros [= <-]; tauto..|]. change (map LBW ws !! k = Some l -> (S (S (S (S k))) = 0 /\ l = LBM m) \/
    (S (S (S (S k))) = 1 /\ l = LBP p) \/ (S (S (S (S k))) = 2 /\ l = LBF f) \/ (S (S (S (S k))) = 3 /\ l = LBU u) \/ exists k0 w, S (S (S (S k))) = 4 + k0 /\ l = LBW w /\ ws !! k0 = Some w).
  change (map LBW ws) with (LBW <$> ws). rewrite list_lookup_fmap. destruct (ws !! k) as [w|] eqn:E; [|done]. intros [= <-].
  do 4 right. by exists k, w.
Qed.
Lemma insert_w k w m p f u ws : <[ 4 + k := LBW w ]> (LBM m :: LBP p :: LBF f :: LBU u :: map LBW ws) = LBM m :: LBP p :: LBF f :: LBU u :: map LBW (<[ k := w ]> ws).
Proof. cbn. do 4 f_equal. change (map LBW) with (fmap (M:=list) LBW). by rewrite list_fmap_insert. Qed.

Lemma insert_m m' m p f u ws : <[ 0 := LBM m' ]> (LBM m :: LBP p :: LBF f :: LBU u :: map LBW ws) = LBM m' :: LBP p :: LBF f :: LBU u :: map LBW ws.
Proof. done. Qed.

Ltac inv_act H := cbn [bact bm_act bp_act bw_act bf_act bu_act bstart] in H; try discriminate H.
Ltac recv_of Hj Hr := let kj := fresh "kj" in let w' := fresh "w'" in let Hw' := fresh "Hw'" in
  apply shape_lookup in Hj as [(-> & ->)|[(-> & ->)|[(-> & ->)|[(-> & ->)|(kj & w' & -> & -> & Hw')]]]];
  [match goal with m : bm |- _ => destruct m; inv_act Hr | _ => inv_act Hr end
  |match goal with p : bp |- _ => destruct p as [|[]|]; inv_act Hr | _ => inv_act Hr end
  |match goal with f : bf |- _ => destruct f; inv_act Hr | _ => inv_act Hr end
  |match goal with u : bu |- _ => destruct u; inv_act Hr | _ => inv_act Hr end
  |destruct w'; inv_act Hr].
Lemma step_inv m p f u ws cl c' : step (shape m p f u ws cl) c' -> pstep m p f u ws cl c'.
Proof.
  intros H. remember (shape m p f u ws cl) as c eqn:E. destruct H as [ls cl0 i j l l' c v k kr Hi Hs Hj Hr Hc|ls cl0 j l c kr Hj Hr Hc|ls cl0 i l c k Hi Hs Hc];
    injection E as -> ->.
  - change (locals (shape m p f u ws cl) !! i = Some l) in Hi. change (locals (shape m p f u ws cl) !! j = Some l') in Hj.
    apply shape_lookup in Hi as [(-> & ->)|[(-> & ->)|[(-> & ->)|[(-> & ->)|(ki & w & -> & -> & Hw)]]]].
    + destruct m; inv_act Hs; injection Hs as <- <- <-; recv_of Hj Hr; (injection Hr; clear Hr; intros; first [discriminate|subst]).
      * exact (p_start_f p u ws cl Hc).
      * exact (p_default b p u ws cl Hc).
      * exact (p_start_p f u ws cl Hc).
      * rewrite insert_w. exact (p_start_w _ kj p f u ws cl Hc Hw').
    + destruct p as [|[|i l]|]; inv_act Hs; injection Hs as <- <- <-; recv_of Hj Hr; (injection Hr; clear Hr; intros; first [discriminate|subst]).
      rewrite insert_w. by apply p_item.
    + destruct f; inv_act Hs; injection Hs as <- <- <-; recv_of Hj Hr; (injection Hr; clear Hr; intros; first [discriminate|subst]).
      * by apply p_deliver.
      * by apply p_done.
    + destruct u; inv_act Hs.
    + destruct w; inv_act Hs; injection Hs as <- <- <-; recv_of Hj Hr; (injection Hr; clear Hr; intros; first [discriminate|subst]); cbn [list_insert].
      * change (<[2:=LBF (BFSend b)]> (LBM m :: LBP p :: LBF BFLoop :: LBU u :: map LBW ws)) with (LBM m :: LBP p :: LBF (BFSend b) :: LBU u :: map LBW ws).
        rewrite insert_w. by apply p_record.
      * match goal with |- context [<[0 := ?x]> (?a :: ?l)] => change (<[0 := x]> (a :: l)) with (x :: l) end. rewrite insert_w. by apply p_wg.
  - change (locals (shape m p f u ws cl) !! j = Some l) in Hj. recv_of Hj Hr; (injection Hr; clear Hr; intros; subst).
    all: try (eapply p_other; [eassumption|discriminate..]).
    + by apply p_eof_res2.
    + by apply p_eof_res.
    + rewrite insert_w. by apply p_eof_work.
  - change (locals (shape m p f u ws cl) !! i = Some l) in Hi.
    apply shape_lookup in Hi as [(-> & ->)|[(-> & ->)|[(-> & ->)|[(-> & ->)|(ki & w & -> & -> & Hw)]]]].
    + destruct m; inv_act Hs; injection Hs; intros; subst; by constructor.
    + destruct p as [|[|]|]; inv_act Hs; injection Hs; intros; subst; by apply p_close_work.
    + destruct f; inv_act Hs.
    + destruct u; inv_act Hs.
    + destruct w; inv_act Hs.
Qed.

(** The steps other than [p_other] exist. *)
Lemma lookup_w k w m p f u ws : ws !! k = Some w -> (LBM m :: LBP p :: LBF f :: LBU u :: map LBW ws) !! (4 + k) = Some (LBW w).
Proof. intros H. change (map LBW ws !! k = Some (LBW w)). change (map LBW ws) with (LBW <$> ws). by rewrite list_lookup_fmap, H. Qed.
Lemma step_of m p f u ws cl c' : (forall c, c ∈ cl -> c = b_work \/ c = b_res2 \/ c = b_res) -> pstep m p f u ws cl c' -> exists c'', step (shape m p f u ws cl) c''.
Proof.
  intros Hcl H. destruct H.
  - eexists. eapply (step_comm _ _ _ 0 2); [reflexivity|reflexivity|reflexivity|reflexivity|done].
  - eexists. eapply (step_comm _ _ _ 0 2); [reflexivity|reflexivity|reflexivity|reflexivity|done].
  - eexists. eapply (step_comm _ _ _ 0 1); [reflexivity|reflexivity|reflexivity|reflexivity|done].
  - eexists. eapply (step_comm _ _ _ 0 (4 + k)); [reflexivity|reflexivity|by eapply lookup_w|reflexivity|done].
  - eexists. eapply (step_comm _ _ _ 1 (4 + k)); [reflexivity|reflexivity|by eapply lookup_w|reflexivity|done].
  - eexists. eapply (step_close _ _ _ 1); [reflexivity|reflexivity|done].
  - eexists. eapply (step_eof _ _ _ (4 + k)); [by eapply lookup_w|reflexivity|done].
  - eexists. eapply (step_comm _ _ _ (4 + k) 2); [by eapply lookup_w|reflexivity|reflexivity|reflexivity|done].
  - eexists. eapply (step_comm _ _ _ (4 + k) 0); [by eapply lookup_w|reflexivity|reflexivity|reflexivity|done].
  - eexists. eapply (step_close _ _ _ 0); [reflexivity|reflexivity|done].
  - eexists. eapply (step_eof _ _ _ 2); [reflexivity|reflexivity|done].
  - eexists. eapply (step_comm _ _ _ 2 0); [reflexivity|reflexivity|reflexivity|reflexivity|done].
  - eexists. eapply (step_close _ _ _ 0); [reflexivity|reflexivity|done].
  - eexists. eapply (step_comm _ _ _ 2 3); [reflexivity|reflexivity|reflexivity|reflexivity|done].
  - eexists. eapply (step_eof _ _ _ 3); [reflexivity|reflexivity|done].
  - exfalso. destruct (Hcl c) as [?|[?|?]]; done.
Qed.

(** ** The invariant *)
Definition got (u : bu) : list branch := match u with BULoop g | BUStop g => g end.
Definition held_f (f : bf) : list branch := match f with BFSend b => [b] | _ => [] end.
Definition held_w (w : bw) : list branch := match w with BWSend b => [b] | _ => [] end.
Definition left_p (p : bp) : list item := match p with BPIdle => items | BPSend l => l | BPStop => [] end.
Definition first_records : list branch :=
  match pre_err, dflt with None, Ret (Some b) => [b] | _, _ => [] end.
Definition outcome_of : outcome unit :=
  match pre_err with
  | Some e => Err e
  | None => match dflt with Err e => Err e | Panic m => Panic m | Ret _ => match names_err with Some e => Err e | None => Ret tt end end
  end.
Definition idle (ws : list bw) : Prop := forall k w, ws !! k = Some w -> w = BWIdle k.
Definition passing (f : bf) : Prop := f = BFLoop \/ exists b, f = BFSend b.
Definition quiet (p : bp) (ws : list bw) : Prop :=
  (p = BPIdle /\ idle ws /\ outcome_of <> Ret tt) \/ (p = BPStop /\ (forall w, w ∈ ws -> w = BWStop) /\ outcome_of = Ret tt).
Definition data (p : bp) (f : bf) (u : bu) (ws : list bw) : Prop :=
  exists r, got u ++ held_f f = first_records ++ r /\ r ++ concat (map held_w ws) ++ records_of work (left_p p) ≡ₚ records_of work items.
Definition running (w : bw) : nat := match w with BWStop => 0 | _ => 1 end.
Definition phase (m : bm) (p : bp) (f : bf) (u : bu) (ws : list bw) : Prop :=
  match m with
  | BStartF => pre_err = None /\ p = BPIdle /\ f = BFIdle /\ u = BULoop [] /\ idle ws
  | BDefault b => pre_err = None /\ dflt = Ret (Some b) /\ p = BPIdle /\ f = BFLoop /\ u = BULoop [] /\ idle ws
  | BStartP => outcome_of = Ret tt /\ p = BPIdle /\ passing f /\ data p f u ws /\ idle ws
  | BStartW i => outcome_of = Ret tt /\ i < n /\ p <> BPIdle /\ passing f /\ data p f u ws /\ BWStop ∉ ws /\
      forall k w, ws !! k = Some w -> (k < i -> forall j, w <> BWIdle j) /\ (i <= k -> w = BWIdle k)
  | BWait k => outcome_of = Ret tt /\ p <> BPIdle /\ passing f /\ data p f u ws /\ 0 < k /\
      sum_list_with running ws = k /\ forall w j, w ∈ ws -> w <> BWIdle j
  | BCloseRes2 oc => oc = outcome_of /\ quiet p ws /\ passing f /\ data p f u ws
  | BWaitF oc => oc = outcome_of /\ quiet p ws /\ f <> BFIdle /\ f <> BFStop /\ data p f u ws
  | BCloseRes oc | BStop oc => oc = outcome_of /\ quiet p ws /\ (f = BFStop \/ f = BFIdle) /\ data p f u ws
  | BCrash _ => False
  end.
Definition late (m : bm) : Prop := match m with BWaitF _ | BCloseRes _ | BStop _ => True | _ => False end.
Definition stopped (m : bm) : Prop := match m with BStop _ => True | _ => False end.
Record inv (m : bm) (p : bp) (f : bf) (u : bu) (ws : list bw) (cl : gset bchan) : Prop := Inv {
  i_len : length ws = n;
  i_closed c : c ∈ cl -> (c = b_work /\ p = BPStop) \/ (c = b_res2 /\ late m) \/ (c = b_res /\ stopped m);
  i_work : p = BPStop -> b_work ∈ cl;
  i_res2 : late m -> f <> BFIdle -> b_res2 ∈ cl;
  i_res : stopped m -> b_res ∈ cl;
  i_user g : u = BUStop g -> b_res ∈ cl;
  i_items l i : p = BPSend l -> i ∈ l -> i ∈ items;
  i_crash w m : w ∈ ws -> w <> BWCrash m;
  i_fdone : f = BFDone -> exists oc, m = BWaitF oc;
  i_wdone : BWDone ∈ ws \/ BWStop ∈ ws -> p = BPStop;
  i_phase : phase m p f u ws }.

(** ** The measure *)
Definition size_m (m : bm) : nat :=
  match m with
  | BStartF => 13 + 2 * n | BDefault _ => 11 + 2 * n | BStartP => 7 + 2 * n | BStartW i => 5 + n + (n - i) | BWait k => 4 + k
  | BCloseRes2 _ => 3 | BWaitF _ => 2 | BCloseRes _ => 1 | BStop _ | BCrash _ => 0
  end.
Definition size_p (p : bp) : nat := match p with BPIdle => 2 + 4 * length items | BPSend l => 1 + 4 * length l | BPStop => 0 end.
Definition size_f (f : bf) : nat := match f with BFIdle => 3 | BFLoop => 2 | BFSend _ => 4 | BFDone => 1 | BFStop => 0 end.
Definition size_u (u : bu) : nat := match u with BULoop _ => 1 | BUStop _ => 0 end.
Definition size_w (w : bw) : nat := match w with BWIdle _ => 3 | BWLoop => 2 | BWSend _ => 5 | BWDone => 1 | _ => 0 end.
Definition size (m : bm) (p : bp) (f : bf) (u : bu) (ws : list bw) : nat := size_m m + size_p p + size_f f + size_u u + sum_list_with size_w ws.
Lemma sum_insert (g : bw -> nat) k w w' ws : ws !! k = Some w -> sum_list_with g (<[ k := w' ]> ws) + g w = sum_list_with g ws + g w'.
Proof.
  revert k. induction ws as [|x ws IH]; intros [|k] H; [done|done| |].
  - injection H as ->. cbn. lia.
  - specialize (IH k H). change (g x + sum_list_with g (<[ k := w' ]> ws) + g w = g x + sum_list_with g ws + g w'). lia.
Qed.

Lemma data_concat k w w' ws : ws !! k = Some w ->
  exists l1 l2, concat (map held_w ws) = l1 ++ held_w w ++ l2 /\ concat (map held_w (<[ k := w' ]> ws)) = l1 ++ held_w w' ++ l2.
Proof.
  revert k. induction ws as [|x ws IH]; intros [|k] H; [done|done| |].
  - injection H as ->. exists [], (concat (map held_w ws)). done.
  - destruct (IH k H) as (l1 & l2 & E1 & E2). exists (held_w x ++ l1), l2. cbn. rewrite E1. change (concat (map held_w (<[k:=w']> ws))) with (concat (map held_w (<[k:=w']> ws))).
    rewrite E2. by rewrite !app_assoc.
Qed.
(** A worker changes without records passing. *)
Lemma data_same k w w' p f u ws : ws !! k = Some w -> held_w w = held_w w' -> data p f u ws -> data p f u (<[ k := w' ]> ws).
Proof.
  intros Hk E (r & H1 & H2). exists r. split; [exact H1|]. destruct (data_concat k w w' ws Hk) as (l1 & l2 & E1 & E2).
  rewrite E1 in H2. by rewrite E2, <- E.
Qed.
Lemma data_item k i l f u ws : ws !! k = Some BWLoop -> (exists r, work i = Ret r) -> data (BPSend (i :: l)) f u ws -> data (BPSend l) f u (<[ k := on_item i ]> ws).
Proof.
  intros Hk [x Hx] (r & H1 & H2). exists r. split; [exact H1|]. destruct (data_concat k BWLoop (on_item i) ws Hk) as (l1 & l2 & E1 & E2).
  rewrite E2. rewrite E1 in H2. rewrite <- H2. apply Permutation_app_head. cbn [held_w app left_p].
  unfold on_item. unfold records_of. cbn [omap list_omap]. rewrite Hx. destruct x as [b|]; cbn [held_w].
  - rewrite <- !app_assoc. apply Permutation_app_head. cbn [app]. by rewrite Permutation_middle.
  - done.
Qed.
Lemma data_record k b p u ws : ws !! k = Some (BWSend b) -> data p BFLoop u ws -> data p (BFSend b) u (<[ k := BWLoop ]> ws).
Proof.
  intros Hk (r & H1 & H2). exists (r ++ [b]). destruct (data_concat k (BWSend b) BWLoop ws Hk) as (l1 & l2 & E1 & E2). split.
  - cbn [held_f] in *. rewrite app_nil_r in H1. by rewrite H1, app_assoc.
  - rewrite E2. rewrite E1 in H2. rewrite <- H2. cbn [held_w app]. rewrite <- !app_assoc. apply Permutation_app_head. cbn [app]. by rewrite Permutation_middle.
Qed.
Lemma data_deliver b g p ws : data p (BFSend b) (BULoop g) ws -> data p BFLoop (BULoop (g ++ [b])) ws.
Proof. intros (r & H1 & H2). exists r. split; [|exact H2]. cbn in *. by rewrite app_nil_r. Qed.

Context (Hn : 0 < n) (Hwork : works work items) (Hdflt : forall m, dflt <> Panic m).

Ltac ph H := cbn [phase] in H.
Lemma elem_insert (k : nat) (w w' x : bw) (ws : list bw) : ws !! k = Some w -> x ∈ <[ k := w' ]> ws -> x = w' \/ x ∈ ws.
Proof.
  intros Hk Hx. apply elem_of_list_lookup in Hx as [j Hj]. destruct (decide (j = k)) as [->|Hne].
  - rewrite list_lookup_insert in Hj by (by eapply lookup_lt_Some). injection Hj as <-. by left.
  - rewrite list_lookup_insert_ne in Hj by done. right. by eapply elem_of_list_lookup_2.
Qed.

Definition good_next (m : bm) (p : bp) (f : bf) (u : bu) (ws : list bw) (c' : bconfig) : Prop :=
  exists m' p' f' u' ws' cl', c' = shape m' p' f' u' ws' cl' /\ inv m' p' f' u' ws' cl' /\ size m' p' f' u' ws' < size m p f u ws.

(** The invariant of the parts that a step of the main goroutine leaves alone. *)
Lemma passing_not f : passing f -> f <> BFIdle /\ f <> BFDone /\ f <> BFStop.
Proof. intros [->|[b ->]]; done. Qed.
Lemma wait_for_pos k : 0 < k -> wait_for k = BWait k.
Proof. destruct k; [lia|done]. Qed.
Lemma start_from_cases i : (i < n /\ start_from i = BStartW i) \/ (n <= i /\ start_from i = BWait n).
Proof. unfold BranchPool.start_from. case_decide; [by left|right]. split; [lia|by apply wait_for_pos]. Qed.
Lemma idle_concat ws : idle ws -> concat (map held_w ws) = [].
Proof.
  intros H. assert (forall w, w ∈ ws -> held_w w = []) as Hh.
  { intros w Hw. apply elem_of_list_lookup in Hw as [k Hk]. by rewrite (H k w Hk). }
  clear H. induction ws as [|w ws IH]; [done|]. cbn. rewrite (Hh w) by left. apply IH. intros x Hx. apply Hh. by right.
Qed.
Lemma data_start u f ws : idle ws -> got u ++ held_f f = first_records -> data BPIdle f u ws.
Proof. intros H E. exists []. rewrite app_nil_r, (idle_concat ws H). done. Qed.
Lemma all_running (ws : list bw) : BWStop ∉ ws -> sum_list_with running ws = length ws.
Proof. induction ws as [|w ws IH]; [done|]. intros H. apply not_elem_of_cons in H as [H1 H2]. cbn. rewrite IH by done. by destruct w. Qed.

(** Only while the workers run does one of them change. *)
Lemma phase_worker m p f u ws k w w' p' f' u' : phase m p f u ws -> ws !! k = Some w -> (forall i, w <> BWIdle i) -> w <> BWStop ->
  (forall i, w' <> BWIdle i) -> w' <> BWStop -> p' <> BPIdle -> (passing f -> passing f') ->
  (data p f u ws -> data p' f' u' (<[ k := w' ]> ws)) ->
  passing f /\ (late m -> False) /\ phase m p' f' u' (<[ k := w' ]> ws).
Proof.
  intros Hph Hk Hw1 Hw2 Hw1' Hw2' Hp' Hf' Hd.
  assert (Hid : idle ws -> False) by (intros Hid; by destruct (Hw1 k); apply Hid).
  assert (Hq : quiet p ws -> False) by (intros [(_ & H & _)|(_ & H & _)]; [done|by apply Hw2, H, elem_of_list_lookup_2 with k]).
  destruct m; cbn [phase late] in *; try (exfalso; tauto).
  - destruct Hph as (Ho & Hi & Hp & Hpass & Hdat & Hns & Hws). split; [done|]. split; [done|]. split; [done|]. split; [done|]. split; [done|]. split; [by apply Hf'|].
    split; [by apply Hd|]. split; [intros Hx; by destruct (elem_insert _ _ _ _ _ Hk Hx)|].
    intros j x Hj. destruct (decide (j = k)) as [->|Hne].
    + rewrite list_lookup_insert in Hj by by eapply lookup_lt_Some. injection Hj as <-. split; [done|]. intros Hx. destruct (Hws k w Hk) as [_ H2]. by destruct (Hw1 k (H2 Hx)).
    + rewrite list_lookup_insert_ne in Hj by done. by apply Hws.
  - destruct Hph as (Ho & Hp & Hpass & Hdat & H0 & Hr & Hws). split; [done|]. split; [done|]. split; [done|]. split; [done|]. split; [by apply Hf'|].
    split; [by apply Hd|]. split; [done|]. split.
    + pose proof (sum_insert running k w w' ws Hk) as Hs. assert (running w = 1) as E by by destruct w. assert (running w' = 1) as E' by by destruct w'. lia.
    + intros x j Hx. destruct (elem_insert _ _ _ _ _ Hk Hx) as [->|Hx']; [done|by apply Hws].
Qed.

Lemma phase_fed m f u ws : phase m (BPSend []) f u ws -> passing f /\ (late m -> False) /\ phase m BPStop f u ws.
Proof.
  intros Hph. assert (Hq : quiet (BPSend []) ws -> False) by (intros [(H & _)|(H & _)]; discriminate H).
  destruct m; cbn [phase late] in *.
  - destruct Hph as (_ & H & _). discriminate H.
  - destruct Hph as (_ & _ & H & _). discriminate H.
  - destruct Hph as (_ & H & _). discriminate H.
  - destruct Hph as (Ho & Hi & Hp & Hpass & Hdat & Hz). done.
  - destruct Hph as (Ho & Hp & Hpass & Hdat & Hz). done.
  - destruct Hph as (_ & H & _). destruct (Hq H).
  - destruct Hph as (_ & H & _). destruct (Hq H).
  - destruct Hph as (_ & H & _). destruct (Hq H).
  - destruct Hph as (_ & H & _). destruct (Hq H).
  - destruct Hph.
Qed.
Lemma phase_fed_not m f u ws k w p : phase m p f u ws -> ws !! k = Some w -> (forall i, w <> BWIdle i) -> w <> BWStop -> p <> BPIdle.
Proof.
  intros Hph Hk Hw1 Hw2 ->.
  assert (Hid : idle ws -> False) by (intros Hid; by destruct (Hw1 k); apply Hid).
  assert (Hq : quiet BPIdle ws -> False) by (intros [(_ & H & _)|(_ & H & _)]; [done|by apply Hw2, H, elem_of_list_lookup_2 with k]).
  destruct m; cbn [phase] in Hph.
  - destruct Hph as (_ & _ & _ & _ & H). exact (Hid H).
  - destruct Hph as (_ & _ & _ & _ & _ & H). exact (Hid H).
  - destruct Hph as (_ & _ & _ & _ & H). exact (Hid H).
  - destruct Hph as (_ & _ & H & _). by apply H.
  - destruct Hph as (_ & H & _). by apply H.
  - destruct Hph as (_ & H & _). exact (Hq H).
  - destruct Hph as (_ & H & _). exact (Hq H).
  - destruct Hph as (_ & H & _). exact (Hq H).
  - destruct Hph as (_ & H & _). exact (Hq H).
  - exact Hph.
Qed.
Lemma none_running (ws : list bw) : sum_list_with running ws = 0 -> forall w, w ∈ ws -> w = BWStop.
Proof.
  induction ws as [|x ws IH]; intros H w Hw; [by apply elem_of_nil in Hw|]. cbn in H. apply elem_of_cons in Hw as [->|Hw]; [destruct x; cbn in H; try lia; done|].
  apply IH; [|done]. change (running x + sum_list_with running ws = 0) in H. lia.
Qed.

Lemma inv_step m p f u ws cl c' : inv m p f u ws cl -> pstep m p f u ws cl c' -> good_next m p f u ws c'.
Proof.
  intros [Hlen Hclo Hwk Hr2 Hrs Hus Hit Hcr Hfd Hwd Hph] H. destruct H as [p u ws cl Hc|b p u ws cl Hc|f u ws cl Hc|i k p f u ws cl Hc Hk|i l k m f u ws cl Hc Hk|
    m f u ws cl Hc|k m p f u ws cl Hc Hk|b k m p u ws cl Hc Hk|k j p f u ws cl Hc Hk|oc p f u ws cl Hc|m p u ws cl Hc|oc p u ws cl Hc|oc p f u ws cl Hc|
    b g m p ws cl Hc|g m p f ws cl Hc|m p f u ws cl c' c Hc Hc1 Hc2 Hc3].
  - (* start_f *) cbn [phase] in Hph. destruct Hph as (Hp & -> & _ & -> & Hid).
    assert (Hcl : forall c, c ∉ cl). { intros c Hx. destruct (Hclo c Hx) as [[_ Hy]|[[_ Hy]|[_ Hy]]]; done. }
    eexists _, _, _, _, _, _. split; [reflexivity|].
    assert (Hpass : passing BFLoop) by by left.
    split; [split; try done|].
    + intros c Hx. by destruct (Hcl c).
    + intros Hl. exfalso. revert Hl. unfold BranchPool.after_start, BranchPool.after_default. destruct dflt as [[b|]| |]; [| destruct names_err| |]; done.
    + unfold BranchPool.after_start, BranchPool.after_default. destruct dflt as [[b|]| |]; [| destruct names_err| |]; done.
    + unfold BranchPool.after_start, BranchPool.after_default. destruct dflt as [[b|]|m|m] eqn:Ed; [| destruct names_err as [m|] eqn:En| |]; cbn [phase].
      * done.
      * split; [unfold outcome_of; by rewrite Hp, Ed, En|]. split; [left; split; [done|split; [done|unfold outcome_of; by rewrite Hp, Ed, En]]|]. split; [done|].
        apply data_start; [done|]. unfold first_records. by rewrite Hp, Ed.
      * split; [unfold outcome_of; by rewrite Hp, Ed, En|]. split; [done|]. split; [done|]. split; [|done].
        apply data_start; [done|]. unfold first_records. by rewrite Hp, Ed.
      * split; [unfold outcome_of; by rewrite Hp, Ed|]. split; [left; split; [done|split; [done|unfold outcome_of; by rewrite Hp, Ed]]|]. split; [done|].
        apply data_start; [done|]. unfold first_records. by rewrite Hp, Ed.
      * by destruct (Hdflt m).
    + unfold size. assert (size_m after_start <= 11 + 2 * n); [|cbn [size_m size_f]; lia].
      unfold BranchPool.after_start, BranchPool.after_default. destruct dflt as [[b|]| |]; [| destruct names_err| |]; cbn [size_m]; lia.
  - (* default *) cbn [phase] in Hph. destruct Hph as (Hp & Ed & -> & _ & -> & Hid).
    assert (Hcl : forall c, c ∉ cl). { intros c Hx. destruct (Hclo c Hx) as [[_ Hy]|[[_ Hy]|[_ Hy]]]; done. }
    eexists _, _, _, _, _, _. split; [reflexivity|].
    assert (Hpass : passing (BFSend b)) by (right; by eexists).
    split; [split; try done|].
    + intros c Hx. by destruct (Hcl c).
    + unfold BranchPool.after_default. destruct names_err; done.
    + unfold BranchPool.after_default. destruct names_err; done.
    + unfold BranchPool.after_default. destruct names_err as [m|] eqn:En; cbn [phase].
      * split; [unfold outcome_of; by rewrite Hp, Ed, En|]. split; [left; split; [done|split; [done|unfold outcome_of; by rewrite Hp, Ed, En]]|]. split; [done|].
        apply data_start; [done|]. unfold first_records. by rewrite Hp, Ed.
      * split; [unfold outcome_of; by rewrite Hp, Ed, En|]. split; [done|]. split; [done|]. split; [|done].
        apply data_start; [done|]. unfold first_records. by rewrite Hp, Ed.
    + unfold size. assert (size_m after_default <= 7 + 2 * n); [|cbn [size_m size_f]; lia].
      unfold BranchPool.after_default. destruct names_err; cbn [size_m]; lia.
  - (* start_p *) cbn [phase] in Hph. destruct Hph as (Ho & _ & Hpass & Hdat & Hid).
    assert (Hcl : forall c, c ∉ cl). { intros c Hx. destruct (Hclo c Hx) as [[_ Hy]|[[_ Hy]|[_ Hy]]]; done. }
    eexists _, _, _, _, _, _. split; [reflexivity|]. destruct (start_from_cases 0) as [[H0 ->]|[H0 _]]; [|lia].
    destruct (passing_not f Hpass) as (Hf1 & Hf2 & Hf3).
    split; [split; try done|].
    + intros c Hx. by destruct (Hcl c).
    + by intros l i [= ->].
    + intros [Hw|Hw]; apply elem_of_list_lookup in Hw as [k Hk]; discriminate (Hid _ _ Hk).
    + cbn [phase]. split; [done|]. split; [done|]. split; [done|]. split; [done|]. split; [exact Hdat|].
      split; [intros Hw; apply elem_of_list_lookup in Hw as [k Hk]; discriminate (Hid _ _ Hk)|]. intros k w Hk. split; [lia|]. intros _. by apply Hid.
    + unfold size. cbn [size_m size_p]. lia.
  - (* start_w *) cbn [phase] in Hph. destruct Hph as (Ho & Hi & Hp & Hpass & Hdat & Hns & Hws). destruct (passing_not f Hpass) as (Hf1 & Hf2 & Hf3).
    assert (k = i) as ->. { destruct (Hws k _ Hk) as [H1 H2]. destruct (decide (k < i)) as [Hlt|Hge]; [by destruct (H1 Hlt i)|]. by injection (H2 ltac:(lia)) as ->. }
    assert (Hlt : i < length ws) by by eapply lookup_lt_Some.
    eexists _, _, _, _, _, _. split; [reflexivity|].
    split; [split; try done|].
    + by rewrite insert_length.
    + intros c Hx. destruct (Hclo c Hx) as [?|[[_ Hy]|[_ Hy]]]; [by left|done|done].
    + destruct (start_from_cases (S i)) as [[H0 ->]|[H0 ->]]; done.
    + destruct (start_from_cases (S i)) as [[H0 ->]|[H0 ->]]; done.
    + intros w m Hw. destruct (elem_insert _ _ _ _ _ Hk Hw) as [->|Hw']; [done|by apply Hcr].
    + intros [Hw|Hw]; (destruct (elem_insert _ _ _ _ _ Hk Hw) as [?|Hw']; [done|apply Hwd; tauto]).
    + assert (Hdat' : data p f u (<[i := BWLoop]> ws)) by by eapply data_same.
      assert (Hws' : forall k w, <[i := BWLoop]> ws !! k = Some w -> (k < S i -> forall j, w <> BWIdle j) /\ (S i <= k -> w = BWIdle k)).
      { intros k w Hkw. destruct (decide (k = i)) as [->|Hne].
        - rewrite list_lookup_insert in Hkw by done. injection Hkw as <-. split; [done|lia].
        - rewrite list_lookup_insert_ne in Hkw by done. destruct (Hws k w Hkw) as [H1 H2]. split; [intros Hx; apply H1; lia|intros Hx; apply H2; lia]. }
      assert (Hns' : BWStop ∉ <[i := BWLoop]> ws) by (intros Hw; by destruct (elem_insert _ _ _ _ _ Hk Hw)).
      destruct (start_from_cases (S i)) as [[H0 ->]|[H0 ->]]; cbn [phase]; [done|].
      split; [done|]. split; [done|]. split; [done|]. split; [done|]. split; [done|].
      split; [by rewrite all_running, insert_length|].
      intros w j Hw. apply elem_of_list_lookup in Hw as [k Hkw]. assert (k < n) by (rewrite <- Hlen, <- (insert_length ws i BWLoop); by eapply lookup_lt_Some).
      apply (Hws' k w Hkw). lia.
    + unfold size. pose proof (sum_insert size_w i _ BWLoop ws Hk) as Hs. cbn [size_w] in Hs.
      assert (size_m (start_from (S i)) < size_m (BStartW i)) by (destruct (start_from_cases (S i)) as [[H0 ->]|[H0 ->]]; cbn [size_m]; lia). cbn [size_m] in *. lia.
  - (* item *)
    assert (Hdone : exists r, work i = Ret r). { apply Hwork. eapply Hit; [reflexivity|left]. }
    assert (Hoi : (forall j, on_item i <> BWIdle j) /\ on_item i <> BWStop /\ on_item i <> BWDone /\ forall m, on_item i <> BWCrash m).
    { unfold BranchPool.on_item. destruct Hdone as [[b|] ->]; done. }
    destruct Hoi as (Ho1 & Ho2 & Ho3 & Ho4).
    destruct (phase_worker m (BPSend (i :: l)) f u ws k BWLoop (on_item i) (BPSend l) f u Hph Hk) as (Hpass & Hl & Hph'); try done.
    { intros Hd. by apply data_item. }
    eexists _, _, _, _, _, _. split; [reflexivity|]. split; [split; try done|].
    + by rewrite insert_length.
    + intros c Hx. destruct (Hclo c Hx) as [[_ ?]|?]; [done|by right].
    + intros l' i' [= <-] Hi'. eapply Hit; [reflexivity|by right].
    + intros w x Hw. destruct (elem_insert _ _ _ _ _ Hk Hw) as [->|Hw']; [done|by apply Hcr].
    + intros [Hw|Hw]; (destruct (elem_insert _ _ _ _ _ Hk Hw) as [?|Hw']; [congruence|discriminate Hwd; tauto]).
    + unfold size. pose proof (sum_insert size_w k _ (on_item i) ws Hk) as Hs. cbn [size_w] in Hs.
      assert (size_w (on_item i) <= 5) by (destruct (on_item i); cbn; lia). cbn [size_p length] in *. lia.
  - (* close work *) destruct (phase_fed m f u ws Hph) as (Hpass & Hl & Hph'). destruct (passing_not f Hpass) as (Hf1 & Hf2 & Hf3).
    eexists _, _, _, _, _, _. split; [reflexivity|]. split; [split; try done|].
    + intros c Hx. apply elem_of_union in Hx as [Hx|Hx]; [apply elem_of_singleton in Hx; by left|]. destruct (Hclo c Hx) as [[_ ?]|?]; [done|by right].
    + intros _. set_solver.
    + intros Hx. specialize (Hrs Hx). set_solver.
    + intros g Hg. specialize (Hus g Hg). set_solver.
    + unfold size. cbn [size_p length]. lia.
  - (* eof work *) assert (p = BPStop) as ->. { destruct (Hclo _ Hc) as [[_ ?]|[[? _]|[? _]]]; done. }
    destruct (phase_worker m BPStop f u ws k BWLoop BWDone BPStop f u Hph Hk) as (Hpass & Hl & Hph'); try done.
    { intros Hd. by eapply data_same. }
    eexists _, _, _, _, _, _. split; [reflexivity|]. split; [split; try done|].
    + by rewrite insert_length.
    + intros w x Hw. destruct (elem_insert _ _ _ _ _ Hk Hw) as [->|Hw']; [done|by apply Hcr].
    + unfold size. pose proof (sum_insert size_w k _ BWDone ws Hk) as Hs. cbn [size_w] in Hs. lia.
  - (* record *) assert (Hpi : p <> BPIdle).
    { eapply phase_fed_not; [exact Hph|exact Hk|discriminate|discriminate]. }
    destruct (phase_worker m p BFLoop u ws k (BWSend b) BWLoop p (BFSend b) u Hph Hk) as (Hpass & Hl & Hph'); try done.
    { intros _. right. by eexists. }
    { intros Hd. by apply data_record. }
    eexists _, _, _, _, _, _. split; [reflexivity|]. split; [split; try done|].
    + by rewrite insert_length.
    + intros w x Hw. destruct (elem_insert _ _ _ _ _ Hk Hw) as [->|Hw']; [done|by apply Hcr].
    + intros [Hw|Hw]; (destruct (elem_insert _ _ _ _ _ Hk Hw) as [?|Hw']; [congruence|apply Hwd; tauto]).
    + unfold size. pose proof (sum_insert size_w k _ BWLoop ws Hk) as Hs. cbn [size_w] in Hs. cbn [size_f]. lia.
  - (* wg *) cbn [phase] in Hph. destruct Hph as (Ho & Hp & Hpass & Hdat & H0 & Hr & Hws). destruct (passing_not f Hpass) as (Hf1 & Hf2 & Hf3).
    assert (p = BPStop) as ->. { apply Hwd. left. by eapply elem_of_list_lookup_2. }
    pose proof (sum_insert running k _ BWStop ws Hk) as Hr'. cbn [running] in Hr'.
    assert (Hdat' : data BPStop f u (<[k := BWStop]> ws)) by by eapply data_same.
    eexists _, _, _, _, _, _. split; [reflexivity|]. split; [split; try done|].
    + by rewrite insert_length.
    + intros c Hx. destruct (Hclo c Hx) as [?|[[_ Hy]|[_ Hy]]]; [by left|done|done].
    + destruct j as [|[|j]]; done.
    + destruct j as [|[|j]]; done.
    + intros w x Hw. destruct (elem_insert _ _ _ _ _ Hk Hw) as [->|Hw']; [done|by apply Hcr].
    + destruct j as [|[|j]]; [lia| |]; cbn [pred wait_for phase].
      * split; [done|]. split; [|done]. right. split; [done|]. split; [|done]. apply none_running. lia.
      * split; [done|]. split; [done|]. split; [done|]. split; [done|]. split; [lia|]. split; [lia|].
        intros w x Hw. destruct (elem_insert _ _ _ _ _ Hk Hw) as [->|Hw']; [done|by apply Hws].
    + unfold size. pose proof (sum_insert size_w k _ BWStop ws Hk) as Hs. cbn [size_w] in Hs. destruct j as [|[|j]]; [lia| |]; cbn [pred wait_for size_m]; lia.
  - (* close res2 *) cbn [phase] in Hph. destruct Hph as (Ho & Hq & Hpass & Hdat). destruct (passing_not f Hpass) as (Hf1 & Hf2 & Hf3).
    eexists _, _, _, _, _, _. split; [reflexivity|]. split; [split; try done|].
    + intros c Hx. apply elem_of_union in Hx as [Hx|Hx]; [apply elem_of_singleton in Hx; right; by left|]. destruct (Hclo c Hx) as [?|[[_ ?]|[_ ?]]]; [by left|done|done].
    + intros Hx. specialize (Hwk Hx). set_solver.
    + intros _ _. set_solver.
    + intros g Hg. specialize (Hus g Hg). set_solver.
    + unfold size. cbn [size_m]. lia.
  - (* eof res2 *) assert (late m) as Hl. { destruct (Hclo _ Hc) as [[? _]|[[_ ?]|[? _]]]; done. }
    assert (exists oc, m = BWaitF oc) as [oc ->]. { destruct m; try done; [by eexists| |]; destruct Hph as (_ & _ & [?|?] & _); done. }
    cbn [phase] in Hph. destruct Hph as (Ho & Hq & _ & _ & Hdat).
    eexists _, _, _, _, _, _. split; [reflexivity|]. split; [split; try done|].
    + intros _. by eexists.
    + unfold size. cbn [size_f]. lia.
  - (* done *) cbn [phase] in Hph. destruct Hph as (Ho & Hq & _ & _ & Hdat).
    eexists _, _, _, _, _, _. split; [reflexivity|]. split; [split; try done|].
    + intros _ _. by apply Hr2.
    + cbn [phase]. split; [done|]. split; [done|]. split; [by left|]. exact Hdat.
    + unfold size. cbn [size_m size_f]. lia.
  - (* close res *) cbn [phase] in Hph. destruct Hph as (Ho & Hq & Hf & Hdat).
    eexists _, _, _, _, _, _. split; [reflexivity|]. split; [split; try done|].
    + intros c Hx. apply elem_of_union in Hx as [Hx|Hx]; [apply elem_of_singleton in Hx; right; by right|]. destruct (Hclo c Hx) as [?|[[? _]|[_ ?]]]; [by left|right; by left|done].
    + intros Hx. specialize (Hwk Hx). set_solver.
    + intros _ Hx. specialize (Hr2 I Hx). set_solver.
    + intros _. set_solver.
    + intros g Hg. specialize (Hus g Hg). set_solver.
    + intros ->. destruct Hf; done.
    + unfold size. cbn [size_m]. lia.
  - (* deliver *) eexists _, _, _, _, _, _. split; [reflexivity|]. split; [split; try done|].
    + intros Hl _. by apply Hr2.
    + destruct m; cbn [phase] in *.
      * destruct Hph as (_ & _ & H & _). discriminate H.
      * destruct Hph as (_ & _ & _ & H & _). discriminate H.
      * destruct Hph as (H1 & H2 & H3 & H4 & H5). split; [done|]. split; [done|]. split; [by left|]. split; [by apply data_deliver|done].
      * destruct Hph as (H1 & H2 & H3 & H4 & H5 & H6). split; [done|]. split; [done|]. split; [done|]. split; [by left|]. split; [by apply data_deliver|done].
      * destruct Hph as (H1 & H2 & H3 & H4 & H5). split; [done|]. split; [done|]. split; [by left|]. split; [by apply data_deliver|done].
      * destruct Hph as (H1 & H2 & H3 & H4). split; [done|]. split; [done|]. split; [by left|by apply data_deliver].
      * destruct Hph as (H1 & H2 & H3 & H4 & H5). split; [done|]. split; [done|]. split; [done|]. split; [done|by apply data_deliver].
      * destruct Hph as (_ & _ & [H|H] & _); discriminate H.
      * destruct Hph as (_ & _ & [H|H] & _); discriminate H.
      * destruct Hph.
    + unfold size. cbn [size_f size_u]. lia.
  - (* eof res *) assert (stopped m) as Hl. { destruct (Hclo _ Hc) as [[? _]|[[? _]|[_ ?]]]; done. }
    eexists _, _, _, _, _, _. split; [reflexivity|]. split; [split; try done|].
    + destruct m; done.
    + unfold size. cbn [size_u]. lia.
  - exfalso. destruct (Hclo c Hc) as [[? _]|[[? _]|[? _]]]; done.
Qed.

(** ** Reachable configurations *)
Notation call := (branches_call pre_err n).
Definition ok (c : bconfig) : Prop := exists m p f u ws cl, c = shape m p f u ws cl /\ inv m p f u ws cl.
Lemma idle_start : idle (map BWIdle (seq 0 n)).
Proof.
  intros k w. change (map BWIdle (seq 0 n)) with (BWIdle <$> seq 0 n). rewrite list_lookup_fmap. destruct (seq 0 n !! k) as [j|] eqn:E; [|done].
  intros [= <-]. apply lookup_seq in E as [-> _]. done.
Qed.
Lemma call_shape : call = shape (before_start pre_err) BPIdle BFIdle (BULoop []) (map BWIdle (seq 0 n)) ∅.
Proof. unfold branches_call, shape. by rewrite map_map. Qed.
Lemma inv_init : inv (before_start pre_err) BPIdle BFIdle (BULoop []) (map BWIdle (seq 0 n)) ∅.
Proof.
  pose proof idle_start as Hid.
  assert (Hno : BWDone ∈ map BWIdle (seq 0 n) \/ BWStop ∈ map BWIdle (seq 0 n) -> False).
  { intros [Hw|Hw]; apply elem_of_list_lookup in Hw as [k Hk]; discriminate (Hid _ _ Hk). }
  split; try done.
  - by rewrite map_length, seq_length.
  - unfold before_start. by destruct pre_err.
  - intros w m Hw ->. apply elem_of_list_lookup in Hw as [k Hk]. discriminate (Hid _ _ Hk).
  - unfold before_start. destruct pre_err as [e|] eqn:E; cbn [phase]; [|done].
    assert (Ho : outcome_of = Err e) by (unfold outcome_of; by rewrite E).
    rewrite Ho. split; [done|]. split; [left; split; [done|split; [exact Hid|by rewrite Ho]]|]. split; [by right|].
    apply data_start; [exact Hid|]. unfold first_records. by rewrite E.
Qed.
Lemma ok_step c c' : ok c -> step c c' -> ok c'.
Proof.
  intros (m & p & f & u & ws & cl & -> & Hi) Hs. apply step_inv in Hs. destruct (inv_step _ _ _ _ _ _ _ Hi Hs) as (m' & p' & f' & u' & ws' & cl' & -> & Hi' & _).
  by exists m', p', f', u', ws', cl'.
Qed.
Lemma ok_reach c : rtc step call c -> ok c.
Proof.
  revert c. refine (rtc_ind_r _ _ _ _).
  - rewrite call_shape. eexists _, _, _, _, _, _. split; [reflexivity|exact inv_init].
  - intros c c' _ Hs Hc. by eapply ok_step.
Qed.
Lemma bounded_from k m p f u ws cl c : inv m p f u ws cl -> nsteps step k (shape m p f u ws cl) c -> k <= size m p f u ws.
Proof.
  revert m p f u ws cl. induction k as [|k IH]; intros m p f u ws cl Hi H; [lia|].
  inversion_clear H as [|? ? y ? Hs Hr]. apply step_inv in Hs. destruct (inv_step _ _ _ _ _ _ _ Hi Hs) as (m' & p' & f' & u' & ws' & cl' & -> & Hi' & Hlt).
  specialize (IH _ _ _ _ _ _ Hi' Hr). lia.
Qed.
Lemma bounded : exists k, forall j c, nsteps step j call c -> j <= k.
Proof. eexists. intros j c. rewrite call_shape. apply bounded_from. exact inv_init. Qed.

Lemma no_crash c : ok c -> ~ crashing act c.
Proof.
  intros (m & p & f & u & ws & cl & -> & [Hlen Hclo Hwk Hr2 Hrs Hus Hit Hcr Hfd Hwd Hph]) (l & Hl & Hp).
  apply elem_of_list_lookup in Hl as [i Hl]. cbn [closed shape] in Hp. unfold panics in Hp.
  apply shape_lookup in Hl as [(-> & ->)|[(-> & ->)|[(-> & ->)|[(-> & ->)|(k & w & -> & -> & Hw)]]]].
  - destruct m; cbn [bact bm_act] in Hp; try done; try (destruct (Hclo _ Hp) as [[? _]|[[? H]|[? H]]]; done).
  - destruct p as [|[|]|]; cbn [bact bp_act bstart] in Hp; try done; destruct (Hclo _ Hp) as [[_ ?]|[[? _]|[? _]]]; done.
  - destruct f; cbn [bact bf_act bstart] in Hp; try done.
    + destruct (Hclo _ Hp) as [[? _]|[[? _]|[_ H]]]; [done|done|]. destruct m; try done. destruct Hph as (_ & _ & [?|?] & _); done.
    + destruct (Hclo _ Hp) as [[? _]|[[? _]|[? _]]]; done.
  - destruct u; cbn [bact bu_act] in Hp; done.
  - destruct w; cbn [bact bw_act bstart] in Hp; try done.
    + destruct (Hclo _ Hp) as [[? _]|[[_ H]|[? _]]]; [done| |done].
      assert (Hq : quiet p ws) by (destruct m; try done; destruct Hph as (_ & H1 & _); exact H1).
      destruct Hq as [(_ & Hq & _)|(_ & Hq & _)]; [discriminate (Hq _ _ Hw)|discriminate (Hq _ (elem_of_list_lookup_2 _ _ _ Hw))].
    + destruct (Hclo _ Hp) as [[? _]|[[? _]|[? _]]]; done.
    + by destruct (Hcr _ m0 (elem_of_list_lookup_2 _ _ _ Hw)).
Qed.

Lemma some_running (ws : list bw) : 0 < sum_list_with running ws -> exists k w, ws !! k = Some w /\ w <> BWStop.
Proof.
  induction ws as [|x ws IH]; cbn; [lia|]. intros H. destruct (decide (running x = 0)) as [E|E].
  - destruct IH as (k & w & Hk & Hw); [lia|]. by exists (S k), w.
  - exists 0, x. split; [done|]. intros ->. done.
Qed.

(** Nothing is left to do only at the end. *)
Lemma final_end m p f u ws cl : inv m p f u ws cl -> final act (shape m p f u ws cl) ->
  exists oc g, m = BStop oc /\ u = BUStop g /\ (f = BFStop \/ f = BFIdle) /\ quiet p ws.
Proof.
  intros [Hlen Hclo Hwk Hr2 Hrs Hus Hit Hcr Hfd Hwd Hph] Hfin.
  assert (Hno : forall c', pstep m p f u ws cl c' -> False).
  { intros c' H. destruct (step_of m p f u ws cl c') as [c'' Hs]; [|exact H|by apply (Hfin c'')].
    intros c Hc. destruct (Hclo c Hc) as [[? _]|[[? _]|[? _]]]; auto. }
  assert (Hnever : forall c, c <> b_work -> c <> b_res2 -> c <> b_res -> c ∉ cl).
  { intros c H1 H2 H3 Hc. destruct (Hclo c Hc) as [[? _]|[[? _]|[? _]]]; done. }
  assert (Hnl : ~ late m -> b_res2 ∉ cl). { intros H1 Hc. destruct (Hclo _ Hc) as [[? _]|[[_ ?]|[? _]]]; done. }
  assert (Hns : ~ stopped m -> b_res ∉ cl). { intros H1 Hc. destruct (Hclo _ Hc) as [[? _]|[[? _]|[_ ?]]]; done. }
  assert (Hf : forall b, f <> BFSend b).
  { intros b ->. assert (Hnst : ~ stopped m). { destruct m; try (intros H; exact H). destruct Hph as (_ & _ & [?|?] & _); done. }
    destruct u as [g|g]; [|by destruct (Hns Hnst); eapply Hus]. eapply Hno. apply p_deliver. exact (Hns Hnst). }
  assert (Hpass : passing f -> f = BFLoop) by (intros [->|[b ->]]; [done|by destruct (Hf b)]).
  destruct m; cbn [phase] in Hph.
  - exfalso. destruct Hph as (_ & -> & -> & -> & _). eapply Hno. apply p_start_f. by apply Hnever.
  - exfalso. destruct Hph as (_ & _ & -> & -> & -> & _). eapply Hno. apply p_default. exact (Hnl (fun H => H)).
  - exfalso. destruct Hph as (_ & -> & _). eapply Hno. apply p_start_p. by apply Hnever.
  - exfalso. destruct Hph as (_ & Hi & _ & _ & _ & _ & Hws). destruct (lookup_lt_is_Some_2 ws i) as [w Hw]; [lia|]. destruct (Hws i w Hw) as [_ Hx].
    rewrite Hx in Hw by lia. eapply Hno. eapply p_start_w; [by apply Hnever|exact Hw].
  - exfalso. destruct Hph as (_ & Hp & Hpa & _ & H0 & Hr & Hws). rewrite <- Hr in H0. apply some_running in H0 as (j & w & Hw & Hst).
    pose proof (elem_of_list_lookup_2 _ _ _ Hw) as Hin. destruct w as [i| |b| | |x].
    + by destruct (Hws _ i Hin).
    + destruct p as [|[|i l]|]; [done| | |].
      * eapply Hno. apply p_close_work. intros Hc. destruct (Hclo _ Hc) as [[_ ?]|[[? _]|[? _]]]; done.
      * eapply Hno. eapply p_item; [|exact Hw]. intros Hc. destruct (Hclo _ Hc) as [[_ ?]|[[? _]|[? _]]]; done.
      * eapply Hno. eapply p_eof_work; [by apply Hwk|exact Hw].
    + rewrite (Hpass Hpa) in Hno. eapply Hno. eapply p_record; [|exact Hw]. apply Hnl. intros H; exact H.
    + eapply Hno. eapply p_wg; [|exact Hw]. by apply Hnever.
    + done.
    + by destruct (Hcr _ x Hin).
  - exfalso. eapply Hno. apply p_close_res2. apply Hnl. intros H; exact H.
  - exfalso. destruct Hph as (_ & _ & H1 & H2 & _). destruct f as [| |b| |]; [done| |by destruct (Hf b)| |done].
    + eapply Hno. apply p_eof_res2. by apply Hr2.
    + eapply Hno. apply p_done. by apply Hnever.
  - exfalso. eapply Hno. apply p_close_res. apply Hns. intros H; exact H.
  - destruct Hph as (_ & Hq & Hff & _). destruct u as [g|g]; [exfalso; eapply Hno; apply p_eof_res; by apply Hrs|]. by exists oc, g.
  - done.
Qed.

(** ** What the caller sees *)
Lemma received_shape m p f u ws cl : branches_received (shape m p f u ws cl) = got u.
Proof. unfold branches_received. cbn. by destruct u. Qed.
Lemma data_of m p f u ws cl : inv m p f u ws cl -> u = BULoop [] \/ data p f u ws.
Proof. intros Hi. pose proof (i_phase _ _ _ _ _ _ Hi) as H. destruct m; cbn [phase] in H.
  - left. tauto. - left. tauto.
  - right. tauto. - right. tauto. - right. tauto. - right. tauto. - right. tauto. - right. tauto. - right. tauto.
  - destruct H.
Qed.
Lemma received_prefix c : ok c -> exists rs, rs ≡ₚ records_of work items /\ branches_received c `prefix_of` first_records ++ rs /\
  forall oc, branches_returned c = Some oc -> oc = outcome_of /\ (oc = Ret tt -> branches_received c = first_records ++ rs) /\ (oc <> Ret tt -> branches_received c = first_records).
Proof.
  intros (m & p & f & u & ws & cl & -> & Hi). rewrite received_shape. destruct (data_of _ _ _ _ _ _ Hi) as [->|(r & H1 & H2)].
  - exists (records_of work items). split; [done|]. split; [apply prefix_nil|]. intros oc Hr. unfold branches_returned in Hr. cbn in Hr. destruct m; try done.
    injection Hr as ->. destruct (i_phase _ _ _ _ _ _ Hi) as (-> & Hq & Hf & r & H1 & H2). split; [done|]. assert (held_f f = []) as E by (destruct Hf as [->| ->]; done).
    rewrite E in H1. symmetry in H1. apply app_nil in H1 as [E1 E2]. rewrite E1. split; [|done]. intros Ho.
    destruct Hq as [(_ & _ & Hq)|(-> & Hws & _)]; [done|]. rewrite E2 in H2. cbn [left_p] in H2. cbn.
    assert (concat (map held_w ws) = []) as E3. { clear -Hws. induction ws as [|w ws IH]; [done|]. cbn. rewrite (Hws w) by left. apply IH. intros x Hx. apply Hws. by right. }
    rewrite E3 in H2. cbn in H2. by apply Permutation_nil_l in H2 as <-.
  - exists (r ++ concat (map held_w ws) ++ records_of work (left_p p)). split; [done|]. split.
    { trans (got u ++ held_f f); [by apply prefix_app_r|]. rewrite H1, app_assoc. by apply prefix_app_r. }
    intros oc Hr. unfold branches_returned in Hr. cbn in Hr. destruct m; try done. injection Hr as ->.
    destruct (i_phase _ _ _ _ _ _ Hi) as (-> & Hq & Hf & _). split; [done|]. assert (held_f f = []) as E by (destruct Hf as [->| ->]; done).
    rewrite E, app_nil_r in H1. rewrite H1. split; intros Ho.
    + destruct Hq as [(_ & _ & Hq)|(-> & Hws & _)]; [done|]. cbn [left_p].
      assert (concat (map held_w ws) = []) as E3. { clear -Hws. induction ws as [|w ws IH]; [done|]. cbn. rewrite (Hws w) by left. apply IH. intros x Hx. apply Hws. by right. }
      rewrite E3. cbn. by rewrite app_nil_r.
    + destruct Hq as [(-> & Hid & _)|(_ & _ & Hq)]; [|done]. rewrite (idle_concat ws Hid) in H2. cbn [left_p app] in H2.
      apply Permutation_length in H2. rewrite app_length in H2. destruct r; [by rewrite app_nil_r|cbn in H2; lia].
Qed.
Lemma final_ended c : ok c -> final act c -> branches_ended c /\ branches_returned c = Some outcome_of.
Proof.
  intros (m & p & f & u & ws & cl & -> & Hi) Hf. destruct (final_end _ _ _ _ _ _ Hi Hf) as (oc & g & -> & -> & Hff & Hq).
  split; [|unfold branches_returned; cbn; by destruct (i_phase _ _ _ _ _ _ Hi) as (-> & _)].
  unfold branches_ended. cbn [locals shape]. constructor; [exact I|]. constructor; [destruct Hq as [(-> & _)|(-> & _)]; exact I|].
  constructor; [destruct Hff as [->| ->]; exact I|]. constructor; [exact I|]. apply Forall_forall. intros l Hl. apply elem_of_list_fmap in Hl as (w & -> & Hw).
  destruct Hq as [(_ & Hid & _)|(_ & Hws & _)]; [|by rewrite (Hws w Hw)]. apply elem_of_list_lookup in Hw as [k Hk]. by rewrite (Hid k w Hk).
Qed.
Lemma closed_iff c : ok c -> b_res ∈ closed c <-> exists oc, branches_returned c = Some oc.
Proof.
  intros (m & p & f & u & ws & cl & -> & Hi). cbn [closed shape]. unfold branches_returned. cbn. split.
  - intros H. destruct (i_closed _ _ _ _ _ _ Hi _ H) as [[? _]|[[? _]|[_ Hs]]]; [done|done|]. destruct m; try done. by eexists.
  - intros [oc H]. apply (i_res _ _ _ _ _ _ Hi). by destruct m.
Qed.
End Pool.
