(** * Lines about memory: proofs for C102 *)
From Verif.Model Require Import Base MemLogs.
From Verif.Spec Require Import MemLines.
From Coq Require Import Lia.

(** [w] has measured for its next line, at a time whose minutes are at most [m]. *)
Definition own (w : logger) (l : list (N * event)) (m : N) : Prop :=
  exists a0 t0 v0 a1, l = a0 ++ (t0, Measured w v0) :: a1 /\ Forall (fun e => ~ line_of w e) a1 /\ (t0 / minute <= m)%N.
#[global] Instance line_of_dec w e : Decision (line_of w e). Proof. destruct e as [? []]; unfold line_of; cbn [snd]; apply _. Defined.
Definition lines_of (w : logger) (l : list (N * event)) : N := N.of_nat (length (filter (fun e => line_of w e) l)).

Lemma own_snoc w l m e : ~ line_of w e -> own w l m -> own w (l ++ [e]) m.
Proof.
  intros He (a0 & t0 & v0 & a1 & -> & Hf & Ht). exists a0, t0, v0, (a1 ++ [e]). split; [by rewrite <-app_assoc|]. split; [|exact Ht].
  apply Forall_app. split; [exact Hf|]. apply Forall_cons. split; [exact He|apply Forall_nil_2; exact I].
Qed.
Lemma own_le w l m m' : (m <= m')%N -> own w l m -> own w l m'.
Proof. intros Hm (a0 & t0 & v0 & a1 & E & Hf & Ht). exists a0, t0, v0, a1. split; [exact E|]. split; [exact Hf|]. lia. Qed.
Lemma own_here w l t v m : (t / minute <= m)%N -> own w (l ++ [(t, Measured w v)]) m.
Proof. intros H. exists l, t, v, []. split; [reflexivity|]. split; [apply Forall_nil_2; exact I|exact H]. Qed.
Lemma last_snoc l e v : (match e.2 with Measured _ _ => False | _ => True end) -> measured_last l v -> measured_last (l ++ [e]) v.
Proof.
  intros He (a & t & w & b & -> & Hf). exists a, t, w, (b ++ [e]). split; [by rewrite <-app_assoc|]. apply Forall_app. split; [exact Hf|]. apply Forall_cons. split; [exact He|apply Forall_nil_2; exact I].
Qed.
Lemma last_here l t w v : measured_last (l ++ [(t, Measured w v)]) v.
Proof. exists l, t, w, []. split; [reflexivity|apply Forall_nil_2; exact I]. Qed.
Lemma snoc_split {A} (l : list A) x a y b : l ++ [x] = a ++ y :: b -> (l = a /\ x = y) \/ exists b', l = a ++ y :: b' /\ b = b' ++ [x].
Proof.
  destruct b as [|z b _] using rev_ind; intros H.
  - apply app_inj_tail in H as [-> ->]. by left.
  - right. exists b. change (l ++ [x] = a ++ (y :: b) ++ [z]) in H. rewrite app_assoc in H. apply app_inj_tail in H as [-> ->]. done.
Qed.
Lemma up_to_date_snoc l t e : up_to_date l -> (forall w m v, e = Line w m v -> measured_last l v /\ own w l m /\ (m <= t / minute)%N) -> up_to_date (l ++ [(t, e)]).
Proof.
  intros Hl He a t' w m v b E. apply snoc_split in E as [[-> E]|(b' & E & _)]; [|by apply (Hl a t' w m v b')]. injection E as -> ->.
  destruct (He w m v eq_refl) as (H1 & (a0 & t0 & v0 & a1 & E1 & Hf & Ht) & H2). split; [exact H1|]. exists a0, t0, v0, a1. split; [exact E1|]. split; [exact Hf|]. split; [exact Ht|exact H2].
Qed.
Lemma lines_snoc w l e : lines_of w (l ++ [e]) = (lines_of w l + if decide (line_of w e) then 1 else 0)%N.
Proof. unfold lines_of. rewrite filter_app, app_length. rewrite filter_cons, filter_nil. destruct (decide (line_of w e)); cbn [length]; lia. Qed.

Section Run.
Context (meas : nat -> N).
Definition place_ok (s : mstate) (w : logger) : Prop :=
  match at_place s w with
  | Stored => own w (m_events s) (m_now s / minute) /\ measured_last (m_events s) (m_mem s)
  | Timed m => own w (m_events s) m /\ (m <= m_now s / minute)%N /\ measured_last (m_events s) (m_mem s)
  | _ => True
  end.
Definition counts (s : mstate) : Prop :=
  (lines_of Caller (m_events s) <= if decide (m_caller s = Over) then 1 else 0)%N /\
  (lines_of Loop (m_events s) + (if decide (m_loop s = Before) then 0 else 1) + (if m_pending s then 1 else 0) <= m_ticks s)%N /\
  (m_ticks s * second <= m_now s)%N /\ m_loop s <> Over.
Definition inv (s : mstate) : Prop := up_to_date (m_events s) /\ place_ok s Caller /\ place_ok s Loop /\ counts s.

Lemma inv_started : inv (started meas).
Proof.
  split; [|split; [exact I|split; [exact I|]]].
  - intros a t w m v b E. destruct a; discriminate.
  - unfold counts. split; [vm_compute; discriminate|]. split; [vm_compute; discriminate|]. split; [vm_compute; discriminate|discriminate].
Qed.
Lemma minute_le a b : (a <= b)%N -> (a / minute <= b / minute)%N.
Proof. intros H. apply N.div_le_mono; [discriminate|exact H]. Qed.

Ltac simp := cbn [m_now m_mem m_n m_pending m_ticks m_caller m_loop m_events at_place] in *.
Ltac dec := repeat match goal with
  | |- context [decide ?p] => destruct (decide p)
  | H : context [decide ?p] |- _ => destruct (decide p)
  end; try congruence.

Lemma inv_pass s d s' : inv s -> act meas s (Pass d) = Some s' -> inv s'.
Proof.
  intros (H1 & H2 & H3 & H4 & H5 & H6 & H7) [= <-]. pose proof (minute_le (m_now s) (m_now s + d) ltac:(lia)) as Hm. unfold inv, place_ok, counts in *. simp.
  split; [exact H1|]. split; [destruct (m_caller s); try exact I; [split; [eapply own_le; [exact Hm|apply H2]|apply H2]|destruct H2 as (A & B & C); split; [exact A|split; [lia|exact C]]]|].
  split; [destruct (m_loop s); try exact I; [split; [eapply own_le; [exact Hm|apply H3]|apply H3]|destruct H3 as (A & B & C); split; [exact A|split; [lia|exact C]]]|].
  split; [exact H4|]. split; [exact H5|]. split; [lia|exact H7].
Qed.
Lemma inv_tick s s' : inv s -> act meas s Tick = Some s' -> inv s'.
Proof.
  intros (H1 & H2 & H3 & H4 & H5 & H6 & H7). cbn [act]. destruct (N.leb_spec ((m_ticks s + 1) * second) (m_now s)) as [Hle|]; [|discriminate]. intros [= <-].
  unfold inv, place_ok, counts in *. simp. split; [exact H1|]. split; [exact H2|]. split; [exact H3|]. split; [exact H4|]. split; [destruct (m_pending s); lia|]. split; [exact Hle|exact H7].
Qed.
Lemma place_note s w p e : place_ok s w -> ~ line_of w (m_now s, e) -> (match e with Measured _ _ => False | _ => True end) -> at_place s w = p ->
  match p with
  | Stored => own w (m_events s ++ [(m_now s, e)]) (m_now s / minute) /\ measured_last (m_events s ++ [(m_now s, e)]) (m_mem s)
  | Timed m => own w (m_events s ++ [(m_now s, e)]) m /\ (m <= m_now s / minute)%N /\ measured_last (m_events s ++ [(m_now s, e)]) (m_mem s)
  | _ => True
  end.
Proof.
  intros H He Hm <-. unfold place_ok in H. destruct (at_place s w); try exact I.
  - destruct H as (A & B). split; [by apply own_snoc|by apply last_snoc].
  - destruct H as (A & B & C). split; [by apply own_snoc|split; [exact B|by apply last_snoc]].
Qed.
Lemma inv_store s w : inv s -> at_place s w = Before -> (w = Loop -> (lines_of Loop (m_events s) + 1 + (if m_pending s then 1 else 0) <= m_ticks s)%N) -> inv (store meas s w).
Proof.
  intros (H1 & H2 & H3 & H4 & H5 & H6 & H7) Hw Hp.
  assert (U : up_to_date (m_events s ++ [(m_now s, Measured w (meas (m_n s)))])) by (apply up_to_date_snoc; [exact H1|discriminate]).
  assert (O : forall x m, own x (m_events s) m -> own x (m_events s ++ [(m_now s, Measured w (meas (m_n s)))]) m) by (intros x m; apply own_snoc; exact (fun K => K)).
  assert (L : forall x, lines_of x (m_events s ++ [(m_now s, Measured w (meas (m_n s)))]) = lines_of x (m_events s)) by (intros x; rewrite lines_snoc, decide_False by exact (fun K => K); lia).
  assert (Me : measured_last (m_events s ++ [(m_now s, Measured w (meas (m_n s)))]) (meas (m_n s))) by apply last_here.
  unfold inv, place_ok, counts, store, note, move in *. destruct w; simp; rewrite !L.
  - split; [exact U|]. split; [split; [apply own_here; lia|exact Me]|]. split.
    { destruct (m_loop s); try exact I; [split; [apply O, H3|exact Me]|destruct H3 as (A & B & C); split; [by apply O|split; [exact B|exact Me]]]. }
    rewrite Hw, decide_False in H4 by discriminate. rewrite (decide_False (P := Stored = Over)) by discriminate. split; [exact H4|]. split; [exact H5|]. split; [exact H6|exact H7].
  - split; [exact U|]. split.
    { destruct (m_caller s); try exact I; [split; [apply O, H2|exact Me]|destruct H2 as (A & B & C); split; [by apply O|split; [exact B|exact Me]]]. }
    split; [split; [apply own_here; lia|exact Me]|]. split; [exact H4|]. rewrite decide_False by discriminate. split; [by apply Hp|]. split; [exact H6|discriminate].
Qed.
Lemma inv_measure s w s' : inv s -> act meas s (Measure w) = Some s' -> inv s'.
Proof.
  intros H. cbn [act]. destruct w.
  - destruct (decide (m_caller s = Before)) as [E|]; [|discriminate]. intros [= <-]. apply inv_store; [exact H|exact E|discriminate].
  - destruct (decide (m_loop s = Before)) as [E|]; [|discriminate]. destruct (m_pending s) eqn:Ep; [|discriminate]. intros [= <-].
    destruct H as (H1 & H2 & H3 & H4 & H5 & H6 & H7). rewrite E, Ep, decide_True in H5 by reflexivity. apply inv_store.
    + unfold inv, place_ok, counts, receive in *. simp. rewrite E, (decide_True (P := Before = Before)) by reflexivity. split; [exact H1|]. split; [exact H2|]. split; [exact I|]. split; [exact H4|]. split; [lia|]. split; [exact H6|discriminate].
    + exact E.
    + intros _. unfold receive. simp. lia.
Qed.
Lemma inv_clock s w s' : inv s -> act meas s (Clock w) = Some s' -> inv s'.
Proof.
  intros (H1 & H2 & H3 & H4 & H5 & H6 & H7). cbn [act]. destruct (decide (at_place s w = Stored)) as [E|]; [|discriminate]. intros [= <-].
  unfold inv, place_ok, counts, move in *. destruct w; simp; rewrite E in *.
  - split; [exact H1|]. split; [destruct H2 as (A & B); split; [exact A|split; [lia|exact B]]|]. split; [exact H3|]. rewrite decide_False in H4 by discriminate. rewrite (decide_False (P := Timed _ = Over)) by discriminate.
    split; [exact H4|]. split; [exact H5|]. split; [exact H6|exact H7].
  - split; [exact H1|]. split; [exact H2|]. split; [destruct H3 as (A & B); split; [exact A|split; [lia|exact B]]|]. rewrite decide_False in H5 by discriminate. rewrite (decide_False (P := Timed _ = Before)) by discriminate.
    split; [exact H4|]. split; [exact H5|]. split; [exact H6|discriminate].
Qed.
Lemma inv_print s w s' : inv s -> act meas s (Print w) = Some s' -> inv s'.
Proof.
  intros (H1 & H2 & H3 & H4 & H5 & H6 & H7). cbn [act]. destruct (at_place s w) as [| |m|] eqn:E; [discriminate..| |discriminate]. intros [= <-].
  assert (Hw : place_ok s w) by (by destruct w). pose proof Hw as Hw'. unfold place_ok in Hw'. rewrite E in Hw'. destruct Hw' as (A & B & C).
  assert (U : up_to_date (m_events s ++ [(m_now s, Line w m (m_mem s))])) by (apply up_to_date_snoc; [exact H1|]; intros w' m' v' [= <- <- <-]; split; [exact C|split; [exact A|exact B]]).
  destruct w; unfold inv, counts, note, move; simp; rewrite !lines_snoc; rewrite E in *.
  - split; [exact U|]. split; [exact I|]. split; [unfold place_ok; simp; apply (place_note s Loop); [exact H3|discriminate|exact I|reflexivity]|].
    rewrite decide_False in H4 by discriminate. rewrite (decide_True (P := line_of Caller _)) by reflexivity. rewrite (decide_True (P := Over = Over)) by reflexivity. rewrite (decide_False (P := line_of Loop _)) by discriminate.
    split; [lia|]. split; [lia|]. split; [exact H6|exact H7].
  - split; [exact U|]. split; [unfold place_ok; simp; apply (place_note s Caller); [exact H2|discriminate|exact I|reflexivity]|]. split; [exact I|].
    rewrite decide_False in H5 by discriminate. rewrite (decide_False (P := line_of Caller _)) by discriminate. rewrite (decide_True (P := line_of Loop _)) by reflexivity. rewrite (decide_True (P := Before = Before)) by reflexivity.
    split; [lia|]. split; [lia|]. split; [exact H6|discriminate].
Qed.
Lemma inv_end s s' : inv s -> act meas s End = Some s' -> inv s'.
Proof.
  intros (H1 & H2 & H3 & H4 & H5 & H6 & H7). cbn [act]. destruct (decide (m_caller s = Over)) as [E|]; [|discriminate]. intros [= <-].
  unfold inv, counts, note; simp; rewrite !lines_snoc, !(decide_False (P := line_of _ _)) by exact (fun K => K). rewrite !N.add_0_r.
  split; [apply up_to_date_snoc; [exact H1|discriminate]|]. split; [unfold place_ok; simp; apply (place_note s Caller); [exact H2|exact (fun K => K)|exact I|reflexivity]|].
  split; [unfold place_ok; simp; apply (place_note s Loop); [exact H3|exact (fun K => K)|exact I|reflexivity]|]. split; [rewrite E, (decide_True (P := Over = Over)) by reflexivity; exact H4|]. split; [exact H5|]. split; [exact H6|exact H7].
Qed.
Lemma inv_run l s s' : inv s -> run meas s l = Some s' -> inv s'.
Proof.
  revert s. induction l as [|a l IH]; intros s Hs; cbn [run]; [by intros [= <-]|]. destruct (act meas s a) as [s1|] eqn:E; [|discriminate]. apply IH.
  destruct a; [by eapply inv_pass|by eapply inv_tick|by eapply inv_measure|by eapply inv_clock|by eapply inv_print|by eapply inv_end].
Qed.
Lemma run_app l1 l2 s : run meas s (l1 ++ l2) = match run meas s l1 with Some s' => run meas s' l2 | None => None end.
Proof. revert s. induction l1 as [|a l1 IH]; intros s; [reflexivity|]. cbn [app run]. by destruct (act meas s a). Qed.

(** The lines of both. *)
Lemma lines_both l : N.of_nat (length (filter is_line l)) = (lines_of Caller l + lines_of Loop l)%N.
Proof.
  induction l as [|[t e] l IH]; [reflexivity|]. unfold lines_of in *. rewrite !filter_cons. destruct e as [w v|w m v|]; [|destruct w|];
    repeat match goal with |- context [decide ?p] => destruct (decide p) as [?|?]; cbn in * end; cbn [length]; try discriminate; try contradiction; try lia; try tauto.
Qed.

(** The goroutine can print one more line, whatever has happened. *)
Lemma one_more s : inv s -> exists l s', run meas s l = Some s' /\ exists b, m_events s' = m_events s ++ b /\ Exists is_line b.
Proof.
  intros Hs. assert (Hp : forall s1, inv s1 -> forall m, m_loop s1 = Timed m -> exists s', run meas s1 [Print Loop] = Some s' /\ m_events s' = m_events s1 ++ [(m_now s1, Line Loop m (m_mem s1))]).
  { intros s1 _ m E. cbn [run act at_place]. rewrite E. eexists. split; reflexivity. }
  assert (Hc : forall s1, inv s1 -> m_loop s1 = Stored -> exists s', run meas s1 [Clock Loop; Print Loop] = Some s' /\ exists m, m_events s' = m_events s1 ++ [(m_now s1, Line Loop m (m_mem s1))]).
  { intros s1 _ E. cbn [run act at_place]. rewrite E, decide_True by reflexivity. cbn [at_place move m_loop]. eexists. split; [reflexivity|]. eexists. reflexivity. }
  assert (X : forall t m v, Exists is_line [(t, Line Loop m v)]) by (intros; apply Exists_cons_hd; exact I).
  destruct (m_loop s) as [| |m|] eqn:E.
  - set (s1 := MState (m_now s + (m_ticks s + 1) * second) (m_mem s) (m_n s) true (m_ticks s + 1) (m_caller s) (m_loop s) (m_events s)).
    assert (R1 : run meas s [Pass ((m_ticks s + 1) * second); Tick] = Some s1).
    { cbn [run act m_now m_ticks]. destruct (N.leb_spec ((m_ticks s + 1) * second) (m_now s + (m_ticks s + 1) * second)) as [_|Hlt]; [reflexivity|lia]. }
    assert (R2 : run meas s1 [Measure Loop] = Some (store meas (receive s1) Loop)).
    { cbn [run act]. rewrite decide_True by exact E. reflexivity. }
    assert (I2 : inv (store meas (receive s1) Loop)) by (eapply inv_run; [|exact R2]; eapply inv_run; [|exact R1]; exact Hs).
    destruct (Hc _ I2 eq_refl) as (s' & R3 & m & E3). exists ([Pass ((m_ticks s + 1) * second); Tick] ++ [Measure Loop] ++ [Clock Loop; Print Loop]), s'. rewrite run_app, R1, run_app, R2. split; [exact R3|].
    eexists ([_] ++ [_]). rewrite E3. split; [unfold store, note; cbn [m_events]; unfold receive, s1; cbn [m_events move]; rewrite <-app_assoc; reflexivity|]. apply Exists_cons_tl, X.
  - destruct (Hc s Hs E) as (s' & R & m & E'). exists [Clock Loop; Print Loop], s'. split; [exact R|]. eexists. split; [exact E'|apply X].
  - destruct (Hp s Hs m E) as (s' & R & E'). exists [Print Loop], s'. split; [exact R|]. eexists. split; [exact E'|apply X].
  - exfalso. destruct Hs as (_ & _ & _ & _ & _ & _ & H). by apply H.
Qed.
Lemma many_more n s : inv s -> exists l s' b, run meas s l = Some s' /\ m_events s' = m_events s ++ b /\ n <= length (filter is_line b).
Proof.
  revert s. induction n as [|n IH]; intros s Hs; [exists [], s, []; split; [reflexivity|split; [by rewrite app_nil_r|cbn; lia]]|].
  destruct (one_more s Hs) as (l1 & s1 & R1 & b1 & E1 & X1). destruct (IH s1 (inv_run _ _ _ Hs R1)) as (l2 & s2 & b2 & R2 & E2 & X2).
  exists (l1 ++ l2), s2, (b1 ++ b2). rewrite run_app, R1. split; [exact R2|]. split; [by rewrite E2, E1, app_assoc|]. rewrite filter_app, app_length.
  assert (1 <= length (filter is_line b1)); [|lia]. apply Exists_exists in X1 as (x & Hx & Hl). assert (K : x ∈ filter is_line b1) by (by apply elem_of_list_filter).
  destruct (filter is_line b1); [by apply elem_of_nil in K|cbn; lia].
Qed.
End Run.
