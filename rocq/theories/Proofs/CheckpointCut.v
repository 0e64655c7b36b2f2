(** * Checkpoints with files that are cut short (C42) *)
From Verif.Model Require Import Base IncBlame LogParser Msgp Process Checkpoint.
From Verif.Spec Require Import Processing Checkpoint.
From Verif.Proofs Require Import MsgpProofs CheckpointProofs CheckpointFiles.
From Coq Require Import Lia.

(** A prefix of a stream reads as a prefix of the records. *)
Lemma read_prefix {R} wf enc dec (HC : codec (R := R) wf enc dec) l p : Forall wf l -> p `prefix_of` write_stream enc l ->
  exists n ok, read_stream dec p = (take n l, ok) /\ (p = write_stream enc l \/ n < length l).
Proof.
  intros Hl [q Hq]. destruct q as [|x q].
  - rewrite app_nil_r in Hq. subst p. exists (length l), true. rewrite firstn_all. split; [by eapply stream_ok|by left].
  - destruct (stream_cut enc l p) as (l1 & z & l2 & p' & -> & -> & Hc); [exists (x :: q); done|].
    apply Forall_app in Hl as [H1 Hl]. apply Forall_cons in Hl as [Hz _].
    exists (length l1). eexists. rewrite take_app. split; [by eapply read_cut|]. right. rewrite app_length. cbn. lia.
Qed.

Lemma ldata_sub D1 D2 : NoDup (dd_pointer <$> D1 ++ D2) ->
  forall h v, foldl (fun (m : gmap N bytes) d => <[ dd_pointer d := dd_data d ]> m) ∅ D1 !! h = Some v ->
    foldl (fun (m : gmap N bytes) d => <[ dd_pointer d := dd_data d ]> m) ∅ (D1 ++ D2) !! h = Some v /\ exists d, d ∈ D1 /\ dd_pointer d = h.
Proof.
  intros Hn h v Hv. assert (He : exists d, d ∈ D1 /\ dd_pointer d = h).
  { destruct (decide (Exists (fun d => dd_pointer d = h) D1)) as [HE|HE]; [apply Exists_exists in HE as (d & ? & ?); by exists d|].
    rewrite foldl_ldata in Hv; [by rewrite lookup_empty in Hv|]. intros d Hd Hp. apply HE, Exists_exists. by exists d. }
  split; [|done]. rewrite foldl_app, foldl_ldata; [done|]. intros d Hd Hp. rewrite fmap_app in Hn. apply NoDup_app in Hn as (_ & Hn & _).
  destruct He as (d' & Hd' & Hp'). apply (Hn h); apply elem_of_list_fmap; [by exists d'|by exists d].
Qed.
Lemma read_line_all m : forall L st x, ofold (read_line m) st L = Ret x -> forall d, d ∈ L -> is_Some (m !! dl_data d).
Proof.
  induction L as [|d L IH]; intros st x E d' Hd'; [by apply elem_of_nil in Hd'|]. cbn in E. unfold read_line in E at 1.
  destruct (m !! dl_data d) eqn:Em; [|done]. cbn in E. apply elem_of_cons in Hd' as [->|Hd']; [by eexists|by eapply IH].
Qed.
Lemma omapM_all {A C} (f : A -> outcome C) l ys : omapM f l = Ret ys -> forall x, x ∈ l -> exists y, f x = Ret y.
Proof.
  revert ys. induction l as [|a l IH]; intros ys E x Hx; [by apply elem_of_nil in Hx|]. cbn in E. destruct (f a) eqn:Ea; [|done..]. cbn in E.
  destruct (omapM f l) eqn:El; [|done..]. apply elem_of_cons in Hx as [->|Hx]; [by eexists|by eapply IH].
Qed.
Lemma read_blame_all m : forall L st x, ofold (read_blame m) st L = Ret x -> forall d n, d ∈ L -> n ∈ db_lines d -> is_Some (m !! n).
Proof.
  induction L as [|d L IH]; intros st x E d' n Hd' Hn; [by apply elem_of_nil in Hd'|]. cbn in E. unfold read_blame in E at 1.
  destruct (omapM _ (db_lines d)) eqn:Em; [|done..]. cbn in E. apply elem_of_cons in Hd' as [->|Hd']; [|by eapply IH].
  destruct (omapM_all _ _ _ Em n Hn) as [y Hy]. destruct (m !! n); [by eexists|done].
Qed.
Lemma read_row_all m : forall L st x, ofold (read_row m) st L = Ret x -> forall d, d ∈ L -> is_Some (m !! dr_blame d).
Proof.
  induction L as [|d L IH]; intros st x E d' Hd'; [by apply elem_of_nil in Hd'|]. cbn in E. unfold read_row in E at 1.
  destruct (m !! dr_blame d) eqn:Em; [|done]. cbn in E. apply elem_of_cons in Hd' as [->|Hd']; [by eexists|by eapply IH].
Qed.

Section cut.
  Context (hash : bytes -> N) (R : prepo) (w : wst) (ol ob : list nat) (L : list (bytes * (bytes * nat))).
  Context (HW : winv hash R w ol ob L).
  Context (HL : forall x, x ∈ L -> blame_at R x.1 x.2.1 = Some x.2.2).
  Notation DD := (ls_data (ws_l w)).
  Notation LL := (ls_lines (ws_l w)).
  Notation BB := (ws_blames w).
  Notation RR := (ws_rows w).

  (** The records refer to each other. *)
  Lemma line_pointer i d : LL !! i = Some d -> dl_pointer d = pos i /\ exists q l, ol !! i = Some q /\ pr_lines R !! q = Some l /\ d = DLine (pos i) (l_commit l) (hash (l_data l)).
  Proof.
    intros Hi. pose proof (w_l _ _ _ _ _ _ HW) as HLi. destruct (lookup_lt_is_Some_2 ol i) as [q Hq]; [rewrite <-(l_len _ _ _ _ HLi); by eapply lookup_lt_Some|].
    destruct (l_lines _ _ _ _ HLi i q Hq) as (l & Hl & E). rewrite Hi in E. injection E as ->. split; [done|]. by exists q, l.
  Qed.
  Lemma blame_pointer i d : BB !! i = Some d -> db_pointer d = pos i.
  Proof.
    intros Hi. destruct (lookup_lt_is_Some_2 ob i) as [b Hb]; [rewrite <-(w_len _ _ _ _ _ _ HW); by eapply lookup_lt_Some|].
    destruct (w_blames _ _ _ _ _ _ HW i b Hb) as (bl & ns & _ & E & _). rewrite Hi in E. by injection E as ->.
  Qed.
  Lemma data_used d : d ∈ DD -> exists x, x ∈ LL /\ dl_data x = dd_pointer d.
  Proof.
    intros Hd. pose proof (w_l _ _ _ _ _ _ HW) as HLi. destruct (l_data_from _ _ _ _ HLi d Hd) as (q & l & Hq & Hl & ->).
    apply elem_of_list_lookup in Hq as [i Hi]. destruct (l_lines _ _ _ _ HLi i q Hi) as (l' & Hl' & E). rewrite Hl in Hl'. injection Hl' as <-.
    eexists. split; [by eapply elem_of_list_lookup_2|done].
  Qed.
  Lemma line_used i : i < length LL -> exists x, x ∈ BB /\ pos i ∈ db_lines x.
  Proof.
    intros Hi. pose proof (w_l _ _ _ _ _ _ HW) as HLi. rewrite (l_len _ _ _ _ HLi) in Hi. apply lookup_lt_is_Some_2 in Hi as [q Hq].
    destruct (w_from_l _ _ _ _ _ _ HW q) as (b & bl & Hb & Hbl & Hin); [by eapply elem_of_list_lookup_2|].
    apply elem_of_list_lookup in Hb as [j Hj]. destruct (w_blames _ _ _ _ _ _ HW j b Hj) as (bl' & ns & Hbl' & E & HF). rewrite Hbl in Hbl'. injection Hbl' as <-.
    eexists. split; [by eapply elem_of_list_lookup_2|]. cbn. apply elem_of_list_lookup in Hin as [k Hk].
    destruct (Forall2_lookup_l _ _ _ _ _ HF Hk) as (n & Hn & Hp). apply (l_ptrs _ _ _ _ HLi) in Hp as (i' & Hi' & ->).
    assert (i' = i) as -> by (eapply NoDup_lookup; [apply (l_nodup _ _ _ _ HLi)|done|done]). by eapply elem_of_list_lookup_2.
  Qed.
  Lemma blame_used i : i < length BB -> exists x, x ∈ RR /\ dr_blame x = pos i.
  Proof.
    intros Hi. rewrite (w_len _ _ _ _ _ _ HW) in Hi. apply lookup_lt_is_Some_2 in Hi as [b Hb].
    destruct (w_from_b _ _ _ _ _ _ HW b) as (c & f & Hcf); [by eapply elem_of_list_lookup_2|].
    apply elem_of_list_lookup in Hcf as [k Hk]. destruct (Forall2_lookup_l _ _ _ _ _ (w_rows _ _ _ _ _ _ HW) Hk) as (r & Hr & n & Hn & ->).
    apply (w_ptrs _ _ _ _ _ _ HW) in Hn as (i' & Hi' & ->). assert (i' = i) as -> by (eapply NoDup_lookup; [apply (w_nodup _ _ _ _ _ _ HW)|done|done]).
    eexists. split; [by eapply elem_of_list_lookup_2|done].
  Qed.
  Lemma rows_fun d d' : d ∈ RR -> d' ∈ RR -> dr_commit d = dr_commit d' -> dr_path d = dr_path d' -> dr_blame d = dr_blame d'.
  Proof.
    intros Hd Hd' Ec Ep. apply elem_of_list_lookup in Hd as [k Hk]. apply elem_of_list_lookup in Hd' as [k' Hk'].
    destruct (Forall2_lookup_r _ _ _ _ _ (w_rows _ _ _ _ _ _ HW) Hk) as (x & Hx & n & Hn & ->).
    destruct (Forall2_lookup_r _ _ _ _ _ (w_rows _ _ _ _ _ _ HW) Hk') as (x' & Hx' & n' & Hn' & ->). cbn in *.
    pose proof (HL x ltac:(by eapply elem_of_list_lookup_2)) as H1. pose proof (HL x' ltac:(by eapply elem_of_list_lookup_2)) as H2.
    rewrite Ec, Ep, H2 in H1. injection H1 as E. rewrite E in Hn'. congruence.
  Qed.

  Lemma values_at P c f : (values P !! c ≫= fun fs : gmap bytes blame => fs !! f) = blame_at P c f ≫= blame_value P.
  Proof. unfold values, blame_at. rewrite lookup_fmap. destruct (pr_files P !! c) as [fs|]; cbn; [|done]. by rewrite lookup_omap. Qed.
  Lemma take_sub {A} n (l : list A) x : x ∈ take n l -> x ∈ l.
  Proof. intros Hx. rewrite <-(take_drop n l). apply elem_of_app. by left. Qed.

  Definition ldata_map (D : list dldata) : gmap N bytes := foldl (fun (m : gmap N bytes) d => <[ dd_pointer d := dd_data d ]> m) ∅ D.
  Lemma lookup_take_of {A} (l : list A) n i x : take n l !! i = Some x -> l !! i = Some x.
  Proof. intros Hx. by apply lookup_take_Some in Hx as [? _]. Qed.

  Record parts (n1 n2 n3 n4 : nat) (P : prepo) : Prop := Parts {
    pt_data : forall d, d ∈ take n3 LL -> is_Some (ldata_map (take n4 DD) !! dl_data d);
    pt_lines : forall i d v, take n3 LL !! i = Some d -> ldata_map (take n4 DD) !! dl_data d = Some v -> pr_lines P !! i = Some (Line v (dl_commit d));
    pt_lenl : length (pr_lines P) = length (take n3 LL);
    pt_blames : forall i d, take n2 BB !! i = Some d -> exists ls,
      Forall2 (fun n q => n = pos q /\ q < length (take n3 LL)) (db_lines d) ls /\ pr_blames P !! i = Some (PBlame (db_commit d) ls (db_binary d));
    pt_lenb : length (pr_blames P) = length (take n2 BB);
    pt_rows : forall d, d ∈ take n1 RR -> exists i, dr_blame d = pos i /\ i < length (take n2 BB);
    pt_at : forall c f b, blame_at P c f = Some b <-> exists d, d ∈ take n1 RR /\ dr_commit d = c /\ dr_path d = f /\ dr_blame d = pos b /\ b < length (take n2 BB) }.

  Lemma read_inv n1 n2 n3 n4 f1 f2 f3 f4 P :
    read_records (take n1 RR, f1) (take n2 BB, f2) (take n3 LL, f3) (take n4 DD, f4) = Ret P -> parts n1 n2 n3 n4 P.
  Proof.
    intros E. unfold read_records, read_ldata, stream_end in E. cbn [fst snd] in E. destruct f4; [|done]. cbn [obind] in E.
    fold (ldata_map (take n4 DD)) in E. set (m1 := ldata_map (take n4 DD)) in *.
    unfold read_lines in E. cbn [fst snd] in E. destruct (ofold (read_line m1) (∅, []) (take n3 LL)) as [[mp2 hp2]| |] eqn:E2; [|done..].
    cbn [obind] in E. unfold stream_end in E. destruct f3; [|done]. cbn [obind fst snd] in E.
    pose proof (read_line_all _ _ _ _ E2) as Hd.
    destruct (read_lines_ok m1 (take n3 LL)) as (mp2' & hp2' & E2' & Hl2 & Hm2 & Hh2).
    { intros i d Hi. split; [|apply Hd; by eapply elem_of_list_lookup_2]. apply lookup_take_of in Hi. by apply line_pointer in Hi as [? _]. }
    rewrite E2 in E2'. injection E2' as <- <-.
    unfold read_blames in E. cbn [fst snd] in E. destruct (ofold (read_blame mp2) (∅, []) (take n2 BB)) as [[mp3 hp3]| |] eqn:E3; [|done..].
    cbn [obind] in E. unfold stream_end in E. destruct f2; [|done]. cbn [obind fst snd] in E.
    pose proof (read_blame_all _ _ _ _ E3) as Hb.
    destruct (read_blames_ok mp2 (take n2 BB)) as (mp3' & hp3' & E3' & Hl3 & Hm3 & Hh3).
    { intros i d Hi. split; [|intros n Hn; eapply Hb; [by eapply elem_of_list_lookup_2|done]]. apply lookup_take_of in Hi. by apply blame_pointer. }
    rewrite E3 in E3'. injection E3' as <- <-.
    unfold read_rows in E. cbn [fst snd] in E. destruct (ofold (read_row mp3) ∅ (take n1 RR)) as [fs| |] eqn:E4; [|done..].
    cbn [obind] in E. unfold stream_end in E. destruct f1; [|done]. cbn [obind] in E. injection E as <-.
    pose proof (read_row_all _ _ _ _ E4) as Hr.
    destruct (read_rows_ok mp3 (take n1 RR)) as (fs' & E4' & Hat & _); [done|intros d d' Hx Hy; apply rows_fun; by eapply take_sub|].
    rewrite E4 in E4'. injection E4' as <-.
    split; cbn [pr_lines pr_blames].
    - exact Hd.
    - exact Hh2.
    - exact Hl2.
    - intros i d Hi. destruct (Hh3 i d Hi) as (ls & HF & Hi'). exists ls. split; [|done]. eapply Forall2_impl; [exact HF|]. cbn. intros n q Hq. by apply Hm2.
    - exact Hl3.
    - intros d Hdr. destruct (Hr d Hdr) as [i Hi]. exists i. by apply Hm3.
    - intros c f b. unfold blame_at. cbn [pr_files]. rewrite Hat. split.
      + intros (d & ? & ? & ? & Hm). exists d. apply Hm3 in Hm. tauto.
      + intros (d & ? & ? & ? & Hm). exists d. split_and!; try done. by apply Hm3.
  Qed.

  Lemma prefix_below n1 n2 n3 n4 f1 f2 f3 f4 P P' :
    read_records (RR, true) (BB, true) (LL, true) (DD, true) = Ret P' ->
    read_records (take n1 RR, f1) (take n2 BB, f2) (take n3 LL, f3) (take n4 DD, f4) = Ret P -> part_of P P'.
  Proof.
    intros EF EP. assert (HF : parts (length RR) (length BB) (length LL) (length DD) P') by (eapply read_inv; rewrite !firstn_all; exact EF).
    apply read_inv in EP as HP. intros c f v. rewrite !values_at. destruct (blame_at P c f) as [b|] eqn:Eb; [|done]. cbn [mbind option_bind]. intros Hv.
    apply (pt_at _ _ _ _ _ HP) in Eb as (d & Hd & Hc & Hf & Hp & Hlt).
    assert (Eb' : blame_at P' c f = Some b).
    { apply (pt_at _ _ _ _ _ HF). exists d. rewrite !firstn_all. split_and!; try done; [by eapply take_sub|]. rewrite take_length in Hlt. lia. }
    rewrite Eb'. cbn [mbind option_bind]. unfold blame_value in Hv |- *.
    apply lookup_lt_is_Some_2 in Hlt as [bl Hbl]. destruct (pt_blames _ _ _ _ _ HP b bl Hbl) as (ls & HFl & E1).
    destruct (pt_blames _ _ _ _ _ HF b bl) as (ls' & HFl' & E2); [rewrite firstn_all; by eapply lookup_take_of|].
    assert (ls' = ls) as ->.
    { clear -HFl HFl'. revert ls' HFl'. induction HFl as [|n q ns ls [Hn _] _ IH]; intros ls' HF'; inversion HF' as [|? q' ? ? [Hn' _] HF'']; subst; [done|].
      f_equal; [by apply pos_inj|by apply IH]. }
    rewrite E1 in Hv. rewrite E2. cbn in *. 
    assert (EM : mapM (fun q => pr_lines P' !! q) ls = mapM (fun q => pr_lines P !! q) ls).
    { clear -HFl HP HF HW. induction HFl as [|n q ns ls [_ Hq] _ IH]; [done|]. cbn. rewrite IH.
      apply lookup_lt_is_Some_2 in Hq as [dl Hdl]. destruct (pt_data _ _ _ _ _ HP dl ltac:(by eapply elem_of_list_lookup_2)) as [v Hv].
      rewrite (pt_lines _ _ _ _ _ HP q dl v Hdl Hv). rewrite (pt_lines _ _ _ _ _ HF q dl v); [done|rewrite firstn_all; by eapply lookup_take_of|].
      rewrite firstn_all. rewrite <-(take_drop n4 DD). eapply ldata_sub; [|exact Hv]. rewrite take_drop. apply (l_dnodup _ _ _ _ (w_l _ _ _ _ _ _ HW)). }
    by rewrite EM.
  Qed.

  (** The data, line and blame records are all needed by the records of the complete other files. *)
  Lemma cut_any n2 n3 n4 f1 f2 f3 f4 P : n2 < length BB \/ n3 < length LL \/ n4 < length DD ->
    read_records (RR, f1) (take n2 BB, f2) (take n3 LL, f3) (take n4 DD, f4) <> Ret P.
  Proof.
    intros Hn E. assert (HP : parts (length RR) n2 n3 n4 P) by (eapply read_inv; rewrite firstn_all; exact E).
    destruct (decide (n2 < length BB)) as [H2|H2].
    { destruct (blame_used n2 H2) as (x & Hx & Hp). destruct (pt_rows _ _ _ _ _ HP x) as (i & Hi & Hlt); [by rewrite firstn_all|].
      rewrite Hp in Hi. apply pos_inj in Hi. subst i. rewrite take_length in Hlt. lia. }
    destruct (decide (n3 < length LL)) as [H3|H3].
    { destruct (line_used n3 H3) as (x & Hx & Hp). apply elem_of_list_lookup in Hx as [j Hj].
      destruct (pt_blames _ _ _ _ _ HP j x) as (ls & HF & _); [by rewrite take_ge by lia|]. apply elem_of_list_lookup in Hp as [i Hi].
      destruct (Forall2_lookup_l _ _ _ _ _ HF Hi) as (q & _ & Hq & Hlt). apply pos_inj in Hq. subst q. rewrite take_length in Hlt. lia. }
    assert (H4 : n4 < length DD) by tauto.
    apply lookup_lt_is_Some_2 in H4 as [d Hd]. destruct (data_used d) as (x & Hx & Hp); [by eapply elem_of_list_lookup_2|].
    destruct (pt_data _ _ _ _ _ HP x) as [v Hv]; [by rewrite take_ge by lia|]. rewrite Hp in Hv.
    pose proof (l_dnodup _ _ _ _ (w_l _ _ _ _ _ _ HW)) as Hnd.
    assert (exists d', d' ∈ take n4 DD /\ dd_pointer d' = dd_pointer d) as (d' & Hd' & Hp').
    { eapply (ldata_sub (take n4 DD) (drop n4 DD)); [by rewrite take_drop|exact Hv]. }
    apply elem_of_list_lookup in Hd' as [j Hj]. apply lookup_take_Some in Hj as [Hj Hlt].
    assert (j = n4); [|lia]. eapply (NoDup_lookup (dd_pointer <$> DD)); [exact Hnd| |]; rewrite list_lookup_fmap; [rewrite Hj; cbn; by rewrite Hp'|by rewrite Hd].
  Qed.
  (** Only a cut of the rows goes unnoticed. *)
  Lemma cut_rows n1 P' : read_records (RR, true) (BB, true) (LL, true) (DD, true) = Ret P' ->
    exists P, read_records (take n1 RR, true) (BB, true) (LL, true) (DD, true) = Ret P /\
      forall c f, is_Some (blame_at P c f) <-> exists d, d ∈ take n1 RR /\ dr_commit d = c /\ dr_path d = f.
  Proof.
    intros E. pose proof E as E0. unfold read_records in E0 |- *. destruct (read_ldata (DD, true)) as [m1| |]; [|done..]. cbn [obind] in *.
    destruct (read_lines m1 (LL, true)) as [m2| |]; [|done..]. cbn [obind] in *. destruct (read_blames m2.1 (BB, true)) as [m3| |]; [|done..]. cbn [obind] in *.
    unfold read_rows in *. cbn [fst snd] in *. destruct (ofold (read_row m3.1) ∅ RR) as [fs| |] eqn:Er; [|done..].
    pose proof (read_row_all _ _ _ _ Er) as Hr.
    destruct (read_rows_ok m3.1 (take n1 RR)) as (fs' & E4' & Hat & _).
    { intros d Hd. apply Hr. by eapply take_sub. }
    { intros d d' Hx Hy; apply rows_fun; by eapply take_sub. }
    rewrite E4'. eexists. split; [reflexivity|]. intros c f. unfold blame_at. cbn [pr_files]. split.
    - intros [b Hb]. apply Hat in Hb as (d & ? & ? & ? & _). by exists d.
    - intros (d & Hd & Hc & Hf). destruct (Hr d) as [b Hb]; [by eapply take_sub|]. exists b. apply Hat. exists d. done.
  Qed.
End cut.
