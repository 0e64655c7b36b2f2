(** * Round trip through the files *)
From Verif.Model Require Import Base IncBlame LogParser Msgp Process Checkpoint.
From Verif.Spec Require Import Checkpoint Processing.
From Verif.Proofs Require Import MsgpProofs CheckpointProofs.
From Coq Require Import Lia.

Lemma nodup_bound (l : list nat) n : NoDup l -> (forall x, x ∈ l -> x < n) -> length l <= n.
Proof.
  intros Hn Hl. rewrite <-(seq_length n 0). apply submseteq_length, NoDup_submseteq; [done|]. intros x Hx. apply elem_of_seq. specialize (Hl x Hx). lia.
Qed.

Lemma records_wf hash R w ol ob L : sound R -> encodable hash R -> winv hash R w ol ob L -> (forall x, x ∈ L -> blame_at R x.1 x.2.1 = Some x.2.2) ->
  Forall wf_row (ws_rows w) /\ Forall wf_dblame (ws_blames w) /\ Forall wf_dline (ls_lines (ws_l w)) /\ Forall wf_ldata (ls_data (ws_l w)).
Proof.
  intros HS (Eh & Ec & Eb & El & Nb & Nl) HW HL. pose proof (w_l _ _ _ _ _ _ HW) as HLi.
  assert (Hob : length ob <= length (pr_blames R)).
  { apply nodup_bound; [exact (w_nodup _ _ _ _ _ _ HW)|]. intros b Hb. destruct (w_from_b _ _ _ _ _ _ HW b Hb) as (c & f & Hin).
    apply HL in Hin. by eapply blame_at_bound. }
  assert (Hol : length ol <= length (pr_lines R)).
  { apply nodup_bound; [exact (l_nodup _ _ _ _ HLi)|]. intros q Hq. destruct (w_from_l _ _ _ _ _ _ HW q Hq) as (b & bl & _ & Hbl & Hin).
    by eapply (proj2 HS). }
  assert (Hpb : forall i b, ob !! i = Some b -> num (pos i)).
  { intros i b Hi. apply lookup_lt_Some in Hi. unfold num, pos in *. lia. }
  assert (Hpl : forall i q, ol !! i = Some q -> num (pos i)).
  { intros i b Hi. apply lookup_lt_Some in Hi. unfold num, pos in *. lia. }
  split; [|split; [|split]]; apply Forall_forall; intros d Hd.
  - apply elem_of_list_lookup in Hd as [k Hk]. destruct (Forall2_lookup_r _ _ _ _ _ (w_rows _ _ _ _ _ _ HW) Hk) as (x & Hx & n & Hn & ->).
    apply (w_ptrs _ _ _ _ _ _ HW) in Hn as (i & Hi & ->). apply elem_of_list_lookup_2 in Hx. destruct (Ec _ _ _ (HL x Hx)). split; [done|]. split; [done|]. by eapply Hpb.
  - apply elem_of_list_lookup in Hd as [i Hi]. destruct (lookup_lt_is_Some_2 ob i) as [b Hb]; [rewrite <-(w_len _ _ _ _ _ _ HW); by eapply lookup_lt_Some|].
    destruct (w_blames _ _ _ _ _ _ HW i b Hb) as (bl & ns & Hbl & E & HF). rewrite Hi in E. injection E as ->.
    destruct (Eb bl) as [? ?]; [by eapply elem_of_list_lookup_2|]. split; [by eapply Hpb|]. split; [done|]. cbn. split.
    + apply Forall_forall. intros n Hn. apply elem_of_list_lookup in Hn as [j Hj]. destruct (Forall2_lookup_r _ _ _ _ _ HF Hj) as (q & _ & Hq).
      apply (l_ptrs _ _ _ _ HLi) in Hq as (x & Hx & ->). by eapply Hpl.
    + by rewrite <-(Forall2_length _ _ _ HF).
  - apply elem_of_list_lookup in Hd as [i Hi]. destruct (lookup_lt_is_Some_2 ol i) as [q Hq]; [rewrite <-(l_len _ _ _ _ HLi); by eapply lookup_lt_Some|].
    destruct (l_lines _ _ _ _ HLi i q Hq) as (l & Hl & E). rewrite Hi in E. injection E as ->. destruct (El l) as [? ?]; [by eapply elem_of_list_lookup_2|].
    split; [by eapply Hpl|]. split; [done|]. apply Eh.
  - destruct (l_data_from _ _ _ _ HLi d Hd) as (q & l & _ & Hl & ->). destruct (El l) as [? ?]; [by eapply elem_of_list_lookup_2|]. split; [apply Eh|done].
Qed.

(** The streams that come out of the files are the records written. *)
Lemma files_ok skip w : Forall wf_row (ws_rows w) -> Forall wf_dblame (ws_blames w) -> Forall wf_dline (ls_lines (ws_l w)) -> Forall wf_ldata (ls_data (ws_l w)) ->
  read_files skip (encode_files w) = read_records (ws_rows w, true) (ws_blames w, true) (ls_lines (ws_l w), true) (ls_data (ws_l w), true).
Proof.
  intros H1 H2 H3 H4. unfold read_files, encode_files. cbn [cf_repo cf_blames cf_lines cf_ldata].
  rewrite (stream_ok _ _ _ (codec_row skip) _ H1), (stream_ok _ _ _ (codec_blame skip) _ H2), (stream_ok _ _ _ (codec_line skip) _ H3), (stream_ok _ _ _ (codec_ldata skip) _ H4). done.
Qed.

Lemma files_iso hash skip R o1 o2 : sound R -> encodable hash R -> any_perm o1 -> (forall c, any_perm (o2 c)) ->
  exists w R' ob ol, write_records hash R o1 o2 = Ret w /\ read_files skip (encode_files w) = Ret R' /\ iso hash R R' ob ol.
Proof.
  intros HS HE H1 H2. destruct (roundtrip_iso hash R o1 o2 HS H1 H2) as (w & Ew & ol & ob & HW & R' & ER & HI).
  exists w, R', ob, ol. split; [done|]. split; [|done].
  destruct (records_wf hash R w ol ob _ HS HE HW) as (W1 & W2 & W3 & W4).
  { intros (c & f & b) Hx. by apply (file_list_elem R o1 o2). }
  by rewrite files_ok.
Qed.

(** ** Without assumptions on the hash *)
Section iso.
  Context (hash : bytes -> N) (R R' : prepo) (ob ol : list nat) (I : iso hash R R' ob ol).
  Lemma iso_shape c f : shape_at R' c f = shape_at R c f.
  Proof.
    unfold shape_at. destruct (blame_at R' c f) as [i|] eqn:E.
    - apply (i_at _ _ _ _ _ I) in E as (b & -> & Hi). cbn. unfold blame_value.
      destruct (i_blame _ _ _ _ _ I i b Hi) as (bl & ls & -> & HF & ->). cbn.
      assert (exists l1 l2, mapM (fun q => pr_lines R' !! q) ls = Some l1 /\ mapM (fun q => pr_lines R !! q) (pb_lines bl) = Some l2 /\ map l_commit l1 = map l_commit l2) as (l1 & l2 & -> & -> & El).
      { clear Hi. induction HF as [|q j qs js Hj _ IH]; [by exists [], []|]. destruct IH as (l1 & l2 & E1 & E2 & El).
        destruct (i_line _ _ _ _ _ I j q Hj) as (l & v & Hl & Hv & _). cbn. rewrite Hl, Hv, E1, E2. cbn.
        eexists _, _. split; [done|]. split; [done|]. cbn. by rewrite El. }
      cbn. by rewrite El.
    - apply (iso_none _ _ _ _ _ I) in E. by rewrite E.
  Qed.
  Lemma iso_known c : is_Some (pr_files R' !! c) <-> exists f, is_Some (blame_at R c f).
  Proof. apply (i_known _ _ _ _ _ I). Qed.
  Lemma iso_text c f i : match text_at R' c f i, text_at R c f i with
    | Some d', Some d => hash d' = hash d /\ exists l, used_line R l /\ d' = l_data l
    | None, None => True | _, _ => False end.
  Proof.
    unfold text_at. destruct (line_at R' c f i) as [j|] eqn:E.
    - apply (iso_line_at _ _ _ _ _ I) in E as (q & -> & Hj). cbn.
      destruct (i_line _ _ _ _ _ I j q Hj) as (l & v & -> & -> & Eh & l' & ? & ?). cbn. eauto.
    - apply (line_at_none _ _ _ _ _ I) in E. by rewrite E.
  Qed.

  Lemma iso_collide c f i c2 f2 i2 d d2 : text_at R c f i = Some d -> text_at R c2 f2 i2 = Some d2 -> hash d = hash d2 ->
    text_at R' c f i = text_at R' c2 f2 i2.
  Proof.
    intros T1 T2 Eh. pose proof (iso_text c f i) as I1. pose proof (iso_text c2 f2 i2) as I2. rewrite T1 in I1. rewrite T2 in I2.
    destruct (text_at R' c f i) as [v|] eqn:V1; [|done]. destruct (text_at R' c2 f2 i2) as [v2|] eqn:V2; [|done]. f_equal.
    unfold text_at in *. destruct (line_at R' c f i) as [j|] eqn:E1; [|done]. destruct (line_at R' c2 f2 i2) as [j2|] eqn:E2; [|done].
    apply (iso_line_at _ _ _ _ _ I) in E1 as (q & Eq & Hj). apply (iso_line_at _ _ _ _ _ I) in E2 as (q2 & Eq2 & Hj2).
    rewrite Eq in T1. rewrite Eq2 in T2. cbn in *. destruct (pr_lines R !! q) as [l|] eqn:El; [|done]. destruct (pr_lines R !! q2) as [l2|] eqn:El2; [|done].
    destruct (pr_lines R' !! j) as [w|] eqn:Ew; [|done]. destruct (pr_lines R' !! j2) as [w2|] eqn:Ew2; [|done]. cbn in *.
    injection T1 as <-. injection T2 as <-. injection V1 as <-. injection V2 as <-. exact (i_collide _ _ _ _ _ I j j2 q q2 l l2 w w2 Hj Hj2 El El2 Eh Ew Ew2).
  Qed.
End iso.

(** ** Every bounded hash has collisions *)
Lemma nodup_or_twice (l : list nat) : NoDup l \/ exists i j x, i < j /\ l !! i = Some x /\ l !! j = Some x.
Proof.
  induction l as [|x l IH]; [left; constructor|]. destruct (decide (x ∈ l)) as [Hx|Hx].
  - right. apply elem_of_list_lookup in Hx as [j Hj]. exists 0, (S j), x. split; [lia|done].
  - destruct IH as [IH|(i & j & y & ? & ? & ?)]; [left; by constructor|]. right. exists (S i), (S j), y. split; [lia|done].
Qed.
Lemma pigeon (f : nat -> N) (n : N) : (forall i, (f i < n)%N) -> exists i j, i < j /\ (N.of_nat j <= n)%N /\ f i = f j.
Proof.
  intros Hf. set (m := N.to_nat n). destruct (nodup_or_twice (map (fun i => N.to_nat (f i)) (seq 0 (S m)))) as [Hn|(i & j & x & Hij & Hi & Hj)].
  - exfalso. pose proof (nodup_bound _ m Hn) as Hb. rewrite map_length, seq_length in Hb. enough (S m <= m) by lia. apply Hb.
    intros x Hx. apply elem_of_list_In, in_map_iff in Hx as (i & <- & _). specialize (Hf i). unfold m. lia.
  - change (map (fun i => N.to_nat (f i)) (seq 0 (S m))) with ((fun i => N.to_nat (f i)) <$> seq 0 (S m)) in Hi, Hj.
    rewrite list_lookup_fmap in Hi, Hj. destruct (seq 0 (S m) !! i) as [a|] eqn:Ea; [|done]. destruct (seq 0 (S m) !! j) as [b|] eqn:Eb; [|done].
    apply lookup_seq in Ea as [-> ?]. apply lookup_seq in Eb as [-> ?]. cbn in Hi, Hj. injection Hi as Hi. injection Hj as Hj.
    exists i, j. split; [done|]. split; [unfold m in *; lia|]. lia.
Qed.
Lemma hash_collides (hash : bytes -> N) : (forall d, num (hash d)) -> exists d d', d <> d' /\ hash d = hash d' /\ length d = 9 /\ length d' = 9.
Proof.
  intros Hh. assert (HB : (18446744073709551616 < 256 ^ N.of_nat 9)%N) by (vm_compute; reflexivity).
  unfold num in Hh. revert HB Hh. generalize 18446744073709551616%N as n. intros n HB Hh.
  destruct (pigeon (fun i => hash (be 9 (N.of_nat i))) n (fun i => Hh _)) as (i & j & Hij & Hj & E).
  exists (be 9 (N.of_nat i)), (be 9 (N.of_nat j)). split; [|split; [exact E|split; apply be_length]].
  intros Eb. apply (f_equal (unbe 0)) in Eb. rewrite !unbe_be, !N.mul_0_l, !N.add_0_l in Eb. rewrite !N.mod_small in Eb; lia.
Qed.
