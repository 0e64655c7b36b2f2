(** * Networks in which each channel has one sender and one receiver are deterministic *)
From Verif.Model Require Import Base Net.

Section Own.
Context {Ch V L : Type} `{Countable Ch} (act : L -> action Ch V L).
Notation config := (config Ch L).
Notation step := (step act).

(** [owns l c]: a goroutine in state [l] may send on or close [c]; [reads l c]: it may receive from it.  A message on [c] hands
    over the channels [gives c]. *)
Context (owns reads : L -> Ch -> Prop) (gives : Ch -> Ch -> Prop).

Record disciplined : Prop := Disciplined {
  d_send l c v k : act l = Send c v k ->
    owns l c /\ (forall d, gives c d -> owns l d) /\ (forall d, owns k d -> owns l d /\ ~ gives c d) /\ (forall d, reads k d -> reads l d);
  d_recv l c kr : act l = Recv c kr ->
    reads l c /\ (forall v d, owns (kr (Some v)) d -> owns l d \/ gives c d) /\ (forall d, owns (kr None) d -> owns l d) /\
    (forall o d, reads (kr o) d -> reads l d);
  d_close l c k : act l = Close c k -> owns l c /\ (forall d, owns k d -> owns l d) /\ (forall d, reads k d -> reads l d) }.

Definition exclusive (c : config) : Prop :=
  forall i j l l', i <> j -> locals c !! i = Some l -> locals c !! j = Some l' ->
    (forall d, owns l d -> ~ owns l' d) /\ (forall d, reads l d -> ~ reads l' d).

Context (D : disciplined).

Lemma insert_inv (ls : list L) i x j l : <[ i := x ]> ls !! j = Some l -> (j = i /\ l = x) \/ (j <> i /\ ls !! j = Some l).
Proof.
  intros Hl. destruct (decide (j = i)) as [->|Hn].
  - left. split; [done|]. destruct (decide (i < length ls)).
    + rewrite list_lookup_insert in Hl by done. by injection Hl.
    + rewrite lookup_ge_None_2 in Hl; [done|]. rewrite insert_length. lia.
  - right. split; [done|]. by rewrite list_lookup_insert_ne in Hl by done.
Qed.

Lemma exclusive_step c c' : exclusive c -> step c c' -> exclusive c'.
Proof.
  intros HE Hs. destruct Hs as [ls cl i j l l' ch v k kr Hi Ai Hj Aj Hc|ls cl j l ch kr Hj Aj Hc|ls cl i l ch k Hi Ai Hc];
    unfold exclusive in *; cbn [locals] in *.
  - assert (i <> j) by (intros ->; rewrite Hi in Hj; injection Hj as ->; rewrite Ai in Aj; discriminate).
    destruct (d_send D l ch v k Ai) as (O1 & G1 & S1 & R1). destruct (d_recv D l' ch kr Aj) as (O2 & S2 & _ & R2).
    assert (Hany : forall a x, <[ i := k ]> (<[ j := kr (Some v) ]> ls) !! a = Some x ->
      (a = i /\ x = k) \/ (a = j /\ x = kr (Some v)) \/ (a <> i /\ a <> j /\ ls !! a = Some x)).
    { intros a x Hx. apply insert_inv in Hx as [[-> ->]|[Hn Hx]]; [by left|]. apply insert_inv in Hx as [[-> ->]|[Hn' Hx]]; [right; by left|].
      right. right. done. }
    intros a b x y Hab Ha Hb. apply Hany in Ha, Hb.
    pose proof (HE i j l l' ltac:(done) Hi Hj) as [Eo Er]. pose proof (HE j i l' l ltac:(done) Hj Hi) as [Eo' Er'].
    destruct Ha as [[-> ->]|[[-> ->]|(Ha1 & Ha2 & Ha)]]; destruct Hb as [[-> ->]|[[-> ->]|(Hb1 & Hb2 & Hb)]]; try done.
    + split; [intros d H1 H2; apply S1 in H1 as [H1 Hg]; apply S2 in H2 as [H2|H2]; [by eapply Eo|done]|].
      intros d H1 H2. eapply Er; [by apply R1|by eapply R2].
    + pose proof (HE i b l y ltac:(done) Hi Hb) as [E1 E2]. split; [intros d H1; apply S1 in H1 as [H1 _]; by apply E1|].
      intros d H1. apply E2. by apply R1.
    + split; [intros d H2 H1; apply S1 in H1 as [H1 Hg]; apply S2 in H2 as [H2|H2]; [by eapply Eo|done]|].
      intros d H1 H2. eapply Er; [by apply R1|by eapply R2].
    + pose proof (HE j b l' y ltac:(done) Hj Hb) as [E1 E2]. pose proof (HE i b l y ltac:(done) Hi Hb) as [E3 E4].
      split; [intros d H1; apply S2 in H1 as [H1|H1]; [by apply E1|by apply E3, G1]|]. intros d H1. apply E2. by eapply R2.
    + pose proof (HE a i x l ltac:(done) Ha Hi) as [E1 E2]. split; [intros d H1 H2; apply S1 in H2 as [H2 _]; by eapply E1|].
      intros d H1 H2. apply R1 in H2. by eapply E2.
    + pose proof (HE a j x l' ltac:(done) Ha Hj) as [E1 E2]. pose proof (HE a i x l ltac:(done) Ha Hi) as [E3 E4].
      split; [intros d H1 H2; apply S2 in H2 as [H2|H2]; [by eapply E1|by eapply E3, G1]|]. intros d H1 H2. apply R2 in H2. by eapply E2.
    + by apply (HE a b x y).
  - destruct (d_recv D l ch kr Aj) as (O2 & _ & S2 & R2). intros a b x y Hab Ha Hb.
    apply insert_inv in Ha as [[-> ->]|[Ha1 Ha]]; apply insert_inv in Hb as [[-> ->]|[Hb1 Hb]]; try done.
    + pose proof (HE j b l y ltac:(done) Hj Hb) as [E1 E2]. split; [intros d H1; by apply E1, S2|intros d H1; by eapply E2, R2].
    + pose proof (HE a j x l ltac:(done) Ha Hj) as [E1 E2]. split; [intros d H1 H2; by eapply E1, S2|intros d H1 H2; by eapply E2, R2].
    + by apply (HE a b x y).
  - destruct (d_close D l ch k Ai) as (O2 & S2 & R2). intros a b x y Hab Ha Hb.
    apply insert_inv in Ha as [[-> ->]|[Ha1 Ha]]; apply insert_inv in Hb as [[-> ->]|[Hb1 Hb]]; try done.
    + pose proof (HE i b l y ltac:(done) Hi Hb) as [E1 E2]. split; [intros d H1; by apply E1, S2|intros d H1; by eapply E2, R2].
    + pose proof (HE a i x l ltac:(done) Ha Hi) as [E1 E2]. split; [intros d H1 H2; by eapply E1, S2|intros d H1 H2; by eapply E2, R2].
    + by apply (HE a b x y).
Qed.

Lemma sender_unique c i j l l' d : exclusive c -> locals c !! i = Some l -> locals c !! j = Some l' -> owns l d -> owns l' d -> i = j.
Proof. intros HE Hi Hj H1 H2. destruct (decide (i = j)) as [|Hn]; [done|]. exfalso. destruct (HE i j l l' Hn Hi Hj) as [HA HB]; first [by eapply HA|by eapply HB]. Qed.
Lemma reader_unique c i j l l' d : exclusive c -> locals c !! i = Some l -> locals c !! j = Some l' -> reads l d -> reads l' d -> i = j.
Proof. intros HE Hi Hj H1 H2. destruct (decide (i = j)) as [|Hn]; [done|]. exfalso. destruct (HE i j l l' Hn Hi Hj) as [HA HB]; first [by eapply HA|by eapply HB]. Qed.

Lemma own_send l c v k : act l = Send c v k -> owns l c.
Proof. intros A. by destruct (d_send D l c v k A). Qed.
Lemma own_close l c k : act l = Close c k -> owns l c.
Proof. intros A. by destruct (d_close D l c k A). Qed.
Lemma read_recv l c k : act l = Recv c k -> reads l c.
Proof. intros A. by destruct (d_recv D l c k A). Qed.

(** Two different steps can be done in either order. *)
Lemma diamond c c1 c2 : exclusive c -> step c c1 -> step c c2 -> c1 = c2 \/ exists c3, step c1 c3 /\ step c2 c3.
Proof.
  intros HE H1 H2.
  destruct H1 as [ls cl i j l l' ch v k kr Hi Ai Hj Aj Hc|ls cl j l ch kr Hj Aj Hc|ls cl i l ch k Hi Ai Hc].
  - assert (i <> j) by (intros ->; rewrite Hi in Hj; injection Hj as ->; rewrite Ai in Aj; discriminate).
    inversion H2 as [ls' cl' i2 j2 l2 l2' ch2 v2 k2 kr2 Hi2 Ai2 Hj2 Aj2 Hc2 E1 E2|ls' cl' j2 l2 ch2 kr2 Hj2 Aj2 Hc2 E1 E2|ls' cl' i2 l2 ch2 k2 Hi2 Ai2 Hc2 E1 E2]; subst.
    + assert (i2 <> j2) by (intros ->; rewrite Hi2 in Hj2; injection Hj2 as ->; rewrite Ai2 in Aj2; discriminate).
      destruct (decide (i = i2)) as [<-|Hii].
      { rewrite Hi in Hi2. injection Hi2 as <-. rewrite Ai in Ai2. injection Ai2 as <- <- <-.
        assert (j = j2) as <- by (eapply (reader_unique (Config ls cl) j j2 l' l2' ch HE Hj Hj2); [by eapply read_recv|by eapply read_recv]).
        rewrite Hj in Hj2. injection Hj2 as <-. rewrite Aj in Aj2. injection Aj2 as <-. by left. }
      destruct (decide (j = j2)) as [<-|Hjj].
      { rewrite Hj in Hj2. injection Hj2 as <-. rewrite Aj in Aj2. injection Aj2 as <- <-.
        exfalso. apply Hii. eapply (sender_unique (Config ls cl) i i2 l l2 ch HE Hi Hi2); [by eapply own_send|by eapply own_send]. }
      assert (i <> j2) by (intros ->; rewrite Hi in Hj2; injection Hj2 as <-; rewrite Ai in Aj2; discriminate).
      assert (j <> i2) by (intros ->; rewrite Hj in Hi2; injection Hi2 as <-; rewrite Aj in Ai2; discriminate).
      right. exists (Config (<[ i2 := k2 ]> (<[ j2 := kr2 (Some v2) ]> (<[ i := k ]> (<[ j := kr (Some v) ]> ls)))) cl). split.
      * eapply step_comm; eauto; rewrite !list_lookup_insert_ne by done; done.
      * replace (<[ i2 := k2 ]> (<[ j2 := kr2 (Some v2) ]> (<[ i := k ]> (<[ j := kr (Some v) ]> ls))))
          with (<[ i := k ]> (<[ j := kr (Some v) ]> (<[ i2 := k2 ]> (<[ j2 := kr2 (Some v2) ]> ls)))).
        -- eapply step_comm; eauto; rewrite !list_lookup_insert_ne by done; done.
        -- rewrite (list_insert_commute _ j i2), (list_insert_commute _ i i2), (list_insert_commute _ j j2), (list_insert_commute _ i j2) by done. done.
    + destruct (decide (j = j2)) as [<-|Hjj].
      { rewrite Hj in Hj2. injection Hj2 as <-. rewrite Aj in Aj2. injection Aj2 as <- <-. done. }
      assert (i <> j2) by (intros ->; rewrite Hi in Hj2; injection Hj2 as <-; rewrite Ai in Aj2; discriminate).
      right. exists (Config (<[ j2 := kr2 None ]> (<[ i := k ]> (<[ j := kr (Some v) ]> ls))) cl). split.
      * eapply step_eof; eauto. rewrite !list_lookup_insert_ne by done. done.
      * rewrite (list_insert_commute _ j2 i), (list_insert_commute _ j2 j) by done.
        eapply step_comm; eauto; rewrite !list_lookup_insert_ne by done; done.
    + assert (i <> i2) by (intros ->; rewrite Hi in Hi2; injection Hi2 as <-; rewrite Ai in Ai2; discriminate).
      assert (j <> i2) by (intros ->; rewrite Hj in Hi2; injection Hi2 as <-; rewrite Aj in Ai2; discriminate).
      assert (ch <> ch2).
      { intros ->. assert (i = i2); [|done]. eapply (sender_unique (Config ls cl) i i2 l l2 ch2 HE Hi Hi2); [by eapply own_send|by eapply own_close]. }
      right. exists (Config (<[ i2 := k2 ]> (<[ i := k ]> (<[ j := kr (Some v) ]> ls))) ({[ ch2 ]} ∪ cl)). split.
      * eapply step_close; eauto. rewrite !list_lookup_insert_ne by done. done.
      * rewrite (list_insert_commute _ i2 i), (list_insert_commute _ i2 j) by done.
        eapply step_comm; eauto; [rewrite !list_lookup_insert_ne by done; done..|set_solver].
  - inversion H2 as [ls' cl' i2 j2 l2 l2' ch2 v2 k2 kr2 Hi2 Ai2 Hj2 Aj2 Hc2 E1 E2|ls' cl' j2 l2 ch2 kr2 Hj2 Aj2 Hc2 E1 E2|ls' cl' i2 l2 ch2 k2 Hi2 Ai2 Hc2 E1 E2]; subst.
    + destruct (decide (j = j2)) as [<-|Hjj].
      { rewrite Hj in Hj2. injection Hj2 as <-. rewrite Aj in Aj2. injection Aj2 as <- <-. done. }
      assert (i2 <> j) by (intros ->; rewrite Hj in Hi2; injection Hi2 as <-; rewrite Aj in Ai2; discriminate).
      right. exists (Config (<[ j := kr None ]> (<[ i2 := k2 ]> (<[ j2 := kr2 (Some v2) ]> ls))) cl). split.
      * rewrite (list_insert_commute _ j i2), (list_insert_commute _ j j2) by done.
        eapply step_comm; eauto; rewrite !list_lookup_insert_ne by done; done.
      * eapply step_eof; eauto. rewrite !list_lookup_insert_ne by done. done.
    + destruct (decide (j = j2)) as [<-|Hjj].
      { rewrite Hj in Hj2. injection Hj2 as <-. rewrite Aj in Aj2. injection Aj2 as <- <-. by left. }
      right. exists (Config (<[ j2 := kr2 None ]> (<[ j := kr None ]> ls)) cl). split.
      * eapply step_eof; eauto. by rewrite list_lookup_insert_ne by done.
      * rewrite list_insert_commute by done. eapply step_eof; eauto. by rewrite list_lookup_insert_ne by done.
    + assert (j <> i2) by (intros ->; rewrite Hj in Hi2; injection Hi2 as <-; rewrite Aj in Ai2; discriminate).
      right. exists (Config (<[ i2 := k2 ]> (<[ j := kr None ]> ls)) ({[ ch2 ]} ∪ cl)). split.
      * eapply step_close; eauto. by rewrite list_lookup_insert_ne by done.
      * rewrite list_insert_commute by done. eapply step_eof; eauto; [by rewrite list_lookup_insert_ne by done|set_solver].
  - inversion H2 as [ls' cl' i2 j2 l2 l2' ch2 v2 k2 kr2 Hi2 Ai2 Hj2 Aj2 Hc2 E1 E2|ls' cl' j2 l2 ch2 kr2 Hj2 Aj2 Hc2 E1 E2|ls' cl' i2 l2 ch2 k2 Hi2 Ai2 Hc2 E1 E2]; subst.
    + assert (i <> i2) by (intros ->; rewrite Hi in Hi2; injection Hi2 as <-; rewrite Ai in Ai2; discriminate).
      assert (i <> j2) by (intros ->; rewrite Hi in Hj2; injection Hj2 as <-; rewrite Ai in Aj2; discriminate).
      assert (ch <> ch2).
      { intros ->. assert (i = i2); [|done]. eapply (sender_unique (Config ls cl) i i2 l l2 ch2 HE Hi Hi2); [by eapply own_close|by eapply own_send]. }
      right. exists (Config (<[ i := k ]> (<[ i2 := k2 ]> (<[ j2 := kr2 (Some v2) ]> ls))) ({[ ch ]} ∪ cl)). split.
      * rewrite (list_insert_commute _ i i2), (list_insert_commute _ i j2) by done.
        eapply step_comm; eauto; [rewrite !list_lookup_insert_ne by done; done..|set_solver].
      * eapply step_close; eauto. rewrite !list_lookup_insert_ne by done. done.
    + assert (i <> j2) by (intros ->; rewrite Hi in Hj2; injection Hj2 as <-; rewrite Ai in Aj2; discriminate).
      right. exists (Config (<[ i := k ]> (<[ j2 := kr2 None ]> ls)) ({[ ch ]} ∪ cl)). split.
      * rewrite list_insert_commute by done. eapply step_eof; eauto; [by rewrite list_lookup_insert_ne by done|set_solver].
      * eapply step_close; eauto. by rewrite list_lookup_insert_ne by done.
    + destruct (decide (i = i2)) as [<-|Hii].
      { rewrite Hi in Hi2. injection Hi2 as <-. rewrite Ai in Ai2. injection Ai2 as <- <-. by left. }
      assert (ch <> ch2).
      { intros ->. apply Hii. eapply (sender_unique (Config ls cl) i i2 l l2 ch2 HE Hi Hi2); [by eapply own_close|by eapply own_close]. }
      right. exists (Config (<[ i2 := k2 ]> (<[ i := k ]> ls)) ({[ ch2 ]} ∪ ({[ ch ]} ∪ cl))). split.
      * eapply step_close; eauto; [by rewrite list_lookup_insert_ne by done|set_solver].
      * rewrite list_insert_commute by done. replace ({[ch2]} ∪ ({[ch]} ∪ cl)) with ({[ch]} ∪ ({[ch2]} ∪ cl)) by set_solver.
        eapply step_close; eauto; [by rewrite list_lookup_insert_ne by done|set_solver].
Qed.

(** If one schedule reaches a final configuration in [n] steps, then every schedule does: after [m] steps, [n - m] remain. *)
Lemma schedules_agree n c f : exclusive c -> nsteps step n c f -> final act f ->
  forall m d, nsteps step m c d -> m <= n /\ nsteps step (n - m) d f.
Proof.
  intros HE Hn Hf m d Hm. revert n f c HE Hn Hf Hm.
  assert (Hone : forall n f c, exclusive c -> nsteps step n c f -> final act f -> forall d, step c d -> exists n', n = S n' /\ nsteps step n' d f).
  { clear m d. intros n. induction n as [|n IH]; intros f c HE Hn Hf d Hd.
    - inversion Hn; subst. exfalso. by eapply Hf.
    - exists n. split; [done|]. inversion Hn as [|? ? c1 ? Hs1 Hrest]; subst.
      destruct (diamond c c1 d HE Hs1 Hd) as [<-|(c3 & H3 & H4)]; [done|].
      destruct (IH f c1 ltac:(by eapply exclusive_step) Hrest Hf c3 H3) as (n' & -> & Hn'). econstructor; [exact H4|done]. }
  induction m as [|m IH]; intros n f c HE Hn Hf Hm.
  - inversion Hm; subst. split; [lia|]. by rewrite Nat.sub_0_r.
  - inversion Hm as [|? ? c1 ? Hs1 Hrest]; subst. destruct (Hone n f c HE Hn Hf c1 Hs1) as (n' & -> & Hn').
    destruct (IH n' f c1 ltac:(by eapply exclusive_step) Hn' Hf Hrest) as [Hle Hr]. split; [lia|]. by replace (S n' - S m) with (n' - m) by lia.
Qed.

Corollary ends_the_same c f d : exclusive c -> rtc step c f -> final act f -> rtc step c d -> rtc step d f /\ (final act d -> d = f).
Proof.
  intros HE Hcf Hf Hcd. apply rtc_nsteps in Hcf as [n Hn]. apply rtc_nsteps in Hcd as [m Hm].
  destruct (schedules_agree n c f HE Hn Hf m d Hm) as [_ Hr]. split; [apply rtc_nsteps; eauto|]. intros Hd.
  inversion Hr as [|? ? d1 ? Hs _]; [done|]. exfalso. by eapply Hd.
Qed.

(** A goroutine that is about to panic stays so. *)
Lemma panic_stays c c' : exclusive c -> step c c' -> crashing act c -> crashing act c'.
Proof.
  intros HE Hs (l & Hl & Hp). apply elem_of_list_lookup in Hl as [a Ha].
  assert (Hkeep : forall ls' cl', locals c' = ls' -> closed c' = cl' -> ls' !! a = Some l -> panics act cl' l -> crashing act c').
  { intros ls' cl' <- <- Hx Hp'. exists l. split; [by eapply elem_of_list_lookup_2|done]. }
  destruct Hs as [ls cl i j l1 l2 ch v k kr Hi Ai Hj Aj Hc|ls cl j l1 ch kr Hj Aj Hc|ls cl i l1 ch k Hi Ai Hc]; cbn [locals closed] in *.
  - eapply Hkeep; [reflexivity..| |exact Hp]. cbn [locals].
    assert (a <> i) by (intros ->; rewrite Hi in Ha; injection Ha as <-; unfold panics in Hp; rewrite Ai in Hp; done).
    assert (a <> j) by (intros ->; rewrite Hj in Ha; injection Ha as <-; unfold panics in Hp; rewrite Aj in Hp; done).
    by rewrite !list_lookup_insert_ne by done.
  - eapply Hkeep; [reflexivity..| |exact Hp]. cbn [locals].
    assert (a <> j) by (intros ->; rewrite Hj in Ha; injection Ha as <-; unfold panics in Hp; rewrite Aj in Hp; done).
    by rewrite !list_lookup_insert_ne by done.
  - eapply Hkeep; [reflexivity..| |].
    + cbn [locals]. assert (a <> i) by (intros ->; rewrite Hi in Ha; injection Ha as <-; unfold panics in Hp; rewrite Ai in Hp; done).
      by rewrite !list_lookup_insert_ne by done.
    + cbn [closed]. revert Hp. unfold panics. destruct (act l); [set_solver|done|set_solver|done|done].
Qed.
End Own.
