(** * A checkpoint as one message: proofs for C96 *)
From Verif.Model Require Import Base Msgp MsgpData.
From Verif.Spec Require Import Checkpoint Message.
From Verif.Proofs Require Import MsgpProofs.
From Coq Require Import Lia.

(** [dec z] decodes what [enc] writes, whatever [z] is. *)
Definition into {R} (wf : R -> Prop) (enc : R -> bytes) (dec : R -> bytes -> dres R) : Prop := forall z0, codec wf enc (dec z0).
Lemma into_row skip : into wf_row enc_row (dec_map skip field_row).
Proof.
  intros z0. split; [| |done|done].
  - intros z r Hz. rewrite enc_row_flds. rewrite <-app_comm_cons, (dec_map_ok skip field_row _ (flds_row z) 3); [|by apply flds_row_ok|done|done]. by destruct z.
  - intros z p Hz Hc. rewrite enc_row_flds in Hc. eapply (dec_map_cut skip field_row _ (flds_row z) 3); [by apply flds_row_ok|done|done|done].
Qed.
Lemma into_blame skip : into wf_dblame enc_blame (dec_map skip field_blame).
Proof.
  intros z0. split; [| |done|done].
  - intros z r Hz. rewrite enc_blame_flds. rewrite <-app_comm_cons, (dec_map_ok skip field_blame _ (flds_blame z) 4); [|by apply flds_blame_ok|done|done]. by destruct z.
  - intros z p Hz Hc. rewrite enc_blame_flds in Hc. eapply (dec_map_cut skip field_blame _ (flds_blame z) 4); [by apply flds_blame_ok|done|done|done].
Qed.
Lemma into_line skip : into wf_dline enc_line (dec_map skip field_line).
Proof.
  intros z0. split; [| |done|done].
  - intros z r Hz. rewrite enc_line_flds. rewrite <-app_comm_cons, (dec_map_ok skip field_line _ (flds_line z) 3); [|by apply flds_line_ok|done|done]. by destruct z.
  - intros z p Hz Hc. rewrite enc_line_flds in Hc. eapply (dec_map_cut skip field_line _ (flds_line z) 3); [by apply flds_line_ok|done|done|done].
Qed.
Lemma into_ldata skip : into wf_ldata enc_ldata (dec_map skip field_ldata).
Proof.
  intros z0. split; [| |done|done].
  - intros z r Hz. rewrite enc_ldata_flds. rewrite <-app_comm_cons, (dec_map_ok skip field_ldata _ (flds_ldata z) 2); [|by apply flds_ldata_ok|done|done]. by destruct z.
  - intros z p Hz Hc. rewrite enc_ldata_flds in Hc. eapply (dec_map_cut skip field_ldata _ (flds_ldata z) 2); [by apply flds_ldata_ok|done|done|done].
Qed.

Section items.
Context {R : Type} (wf : R -> Prop) (enc : R -> bytes) (dec : R -> bytes -> dres R) (HI : into wf enc dec).
Lemma items_ok l : Forall wf l -> forall zs r, length zs = length l -> read_items dec zs (concat (map enc l) ++ r) = POk l r.
Proof.
  induction 1 as [|x l Hx _ IH]; intros zs r Hl; destruct zs as [|z zs]; try discriminate; [done|]. cbn [map concat read_items]. rewrite <- app_assoc, (co_dec _ _ _ (HI z)) by done.
  rewrite IH by (injection Hl as Hl; exact Hl). done.
Qed.
Lemma items_cut l : Forall wf l -> forall zs p, length zs = length l -> cut p (concat (map enc l)) -> read_items dec zs p = PEof.
Proof.
  induction 1 as [|x l Hx _ IH]; intros zs p Hl Hc; destruct zs as [|z zs]; try discriminate; [by apply cut_nil in Hc|]. cbn [map concat read_items] in *.
  apply cut_app in Hc as [Hc|(p' & -> & Hc)].
  - destruct (co_cut _ _ _ (HI z) x p Hx Hc) as [-> | ->]; done.
  - rewrite (co_dec _ _ _ (HI z)) by done. rewrite (IH zs p'); [done|by injection Hl|done].
Qed.
Lemma slots_length zero (old : list R) n : length (slots zero old n) = n.
Proof. unfold slots. destruct (Nat.leb_spec n (length old)); [rewrite take_length; lia|apply replicate_length]. Qed.
Lemma reads_slice zero old l : Forall wf l -> (N.of_nat (length l) < 4294967296)%N -> reads (read_slice dec zero old) (enc_items enc l) l.
Proof.
  intros Hw Hl. unfold read_slice, enc_items. eapply reads_bind; [by apply reads_array_header|]. cbv beta. rewrite Nat2N.id. split.
  - intros r. apply items_ok; [done|apply slots_length].
  - intros p q E Hq. apply (items_cut l Hw); [apply slots_length|]. by exists q.
Qed.
End items.

(** ** The message *)
Definition flds_data (z : ddata) : list (fld (R := ddata)) :=
  [Fld [byte 164; byte 100; byte 97; byte 116; byte 97] (enc_items enc_row (da_rows z)) (fun y => DData (da_rows z) (da_blames y) (da_lines y) (da_ldata y));
   Fld [byte 162; byte 98; byte 108] (enc_items enc_blame (da_blames z)) (fun y => DData (da_rows y) (da_blames z) (da_lines y) (da_ldata y));
   Fld [byte 161; byte 108] (enc_items enc_line (da_lines z)) (fun y => DData (da_rows y) (da_blames y) (da_lines z) (da_ldata y));
   Fld [byte 162; byte 108; byte 100] (enc_items enc_ldata (da_ldata z)) (fun y => DData (da_rows y) (da_blames y) (da_lines y) (da_ldata z))].
Lemma enc_data_flds z : enc_data z = byte (128 + 4) :: flds_bytes (flds_data z).
Proof. unfold enc_data, flds_data, flds_bytes. cbn [map concat fl_key fl_val app]. rewrite ?app_nil_r. repeat (rewrite <- ?app_comm_cons, <- ?app_assoc). done. Qed.

Section fields.
Context (skip : bytes -> pres unit) {R : Type} (field : bytes -> R -> bytes -> option (dres R)).
Definition fld_into (f : fld (R := R)) : Prop := exists key, reads read_key (fl_key f) key /\
  (forall z r, field key z (fl_val f ++ r) = Some (DOk (fl_set f z) r)) /\ (forall z p, cut p (fl_val f) -> field key z p = Some DFail).
Lemma fields_into fs : Forall fld_into fs -> forall z r, dec_fields skip field (length fs) z (flds_bytes fs ++ r) = DOk (foldl (fun z f => fl_set f z) z fs) r.
Proof.
  induction 1 as [|f fs (key & [Hk _] & Hf & _) _ IH]; intros z r; [done|]. unfold flds_bytes. cbn [map concat length dec_fields foldl]. rewrite <- !app_assoc, Hk, Hf. apply IH.
Qed.
Lemma fields_into_cut fs : Forall fld_into fs -> forall z p, cut p (flds_bytes fs) -> dec_fields skip field (length fs) z p = DEof \/ dec_fields skip field (length fs) z p = DFail.
Proof.
  induction 1 as [|f fs (key & [Hk Hk2] & Hf & Hf2) _ IH]; intros z p Hc; [by apply cut_nil in Hc|]. unfold flds_bytes in Hc. cbn [map concat length dec_fields] in *. rewrite <- app_assoc in Hc.
  apply cut_app in Hc as [(q & Hq & E)|(p' & -> & Hc)]; [rewrite (Hk2 p q E Hq); by left|]. rewrite Hk.
  apply cut_app in Hc as [Hc|(p'' & -> & Hc)]; [rewrite Hf2 by done; by right|]. rewrite Hf. by apply IH.
Qed.
Lemma map_into fs n z r : Forall fld_into fs -> n = N.of_nat (length fs) -> (n < 16)%N ->
  dec_map skip field z (byte (128 + n) :: flds_bytes fs ++ r) = DOk (foldl (fun z f => fl_set f z) z fs) r.
Proof. intros Hf -> Hn. unfold dec_map. destruct (reads_map_header _ Hn) as [H _]. specialize (H (flds_bytes fs ++ r)). cbn [app] in H. rewrite H, Nat2N.id. by apply fields_into. Qed.
Lemma map_into_cut fs n z p : Forall fld_into fs -> n = N.of_nat (length fs) -> (n < 16)%N -> cut p (byte (128 + n) :: flds_bytes fs) ->
  dec_map skip field z p = DEof \/ dec_map skip field z p = DFail.
Proof.
  intros Hf -> Hn Hc. unfold dec_map. destruct (reads_map_header _ Hn) as [H _]. destruct Hc as (q & Hq & E). destruct p as [|c p]; [by left|]. injection E as <- E.
  specialize (H p). cbn [app] in H. rewrite H, Nat2N.id. apply fields_into_cut; [done|]. by exists q.
Qed.
End fields.

Lemma in_slice {A C} (rd : bytes -> pres A) w v (set : A -> C) : reads rd w v -> (forall r, in_field (rd (w ++ r)) set = DOk (set v) r) /\ (forall p, cut p w -> in_field (rd p) set = DFail).
Proof. intros [H1 H2]. split; [intros r; by rewrite H1|]. intros p (q & Hq & E). by rewrite (H2 p q E Hq). Qed.
Lemma data_key skip z s : field_data skip (B "data") z s = Some (in_field (read_slice (dec_map skip field_row) (DRow [] [] 0) (da_rows z) s) (fun x => DData x (da_blames z) (da_lines z) (da_ldata z))).
Proof. reflexivity. Qed.
Lemma bl_key skip z s : field_data skip (B "bl") z s = Some (in_field (read_slice (dec_map skip field_blame) (DBlame 0 [] [] false) (da_blames z) s) (fun x => DData (da_rows z) x (da_lines z) (da_ldata z))).
Proof. reflexivity. Qed.
Lemma l_key skip z s : field_data skip (B "l") z s = Some (in_field (read_slice (dec_map skip field_line) (DLine 0 [] 0) (da_lines z) s) (fun x => DData (da_rows z) (da_blames z) x (da_ldata z))).
Proof. reflexivity. Qed.
Lemma ld_key skip z s : field_data skip (B "ld") z s = Some (in_field (read_slice (dec_map skip field_ldata) (DLData 0 []) (da_ldata z) s) (fun x => DData (da_rows z) (da_blames z) (da_lines z) x)).
Proof. reflexivity. Qed.
Lemma flds_data_into skip z : wf_data z -> Forall (fld_into (field_data skip)) (flds_data z).
Proof.
  intros (H1 & H2 & H3 & H4 & F1 & F2 & F3 & F4). repeat apply Forall_cons_2; [| | | |constructor].
  - exists (B "data"). split; [exact (reads_key (B "data") ltac:(vm_compute; reflexivity))|]. split; intros y r; [|intros Hr]; rewrite data_key; cbn [fl_val fl_set] in *; f_equal;
      destruct (in_slice _ _ _ (fun x => DData x (da_blames y) (da_lines y) (da_ldata y)) (reads_slice _ _ _ (into_row skip) (DRow [] [] 0) (da_rows y) (da_rows z) H1 F1)) as [E1 E2]; [apply E1|by apply E2].
  - exists (B "bl"). split; [exact (reads_key (B "bl") ltac:(vm_compute; reflexivity))|]. split; intros y r; [|intros Hr]; rewrite bl_key; cbn [fl_val fl_set] in *; f_equal;
      destruct (in_slice _ _ _ (fun x => DData (da_rows y) x (da_lines y) (da_ldata y)) (reads_slice _ _ _ (into_blame skip) (DBlame 0 [] [] false) (da_blames y) (da_blames z) H2 F2)) as [E1 E2]; [apply E1|by apply E2].
  - exists (B "l"). split; [exact (reads_key (B "l") ltac:(vm_compute; reflexivity))|]. split; intros y r; [|intros Hr]; rewrite l_key; cbn [fl_val fl_set] in *; f_equal;
      destruct (in_slice _ _ _ (fun x => DData (da_rows y) (da_blames y) x (da_ldata y)) (reads_slice _ _ _ (into_line skip) (DLine 0 [] 0) (da_lines y) (da_lines z) H3 F3)) as [E1 E2]; [apply E1|by apply E2].
  - exists (B "ld"). split; [exact (reads_key (B "ld") ltac:(vm_compute; reflexivity))|]. split; intros y r; [|intros Hr]; rewrite ld_key; cbn [fl_val fl_set] in *; f_equal;
      destruct (in_slice _ _ _ (fun x => DData (da_rows y) (da_blames y) (da_lines y) x) (reads_slice _ _ _ (into_ldata skip) (DLData 0 []) (da_ldata y) (da_ldata z) H4 F4)) as [E1 E2]; [apply E1|by apply E2].
Qed.
Lemma data_round_trip skip z old r : wf_data z -> dec_data skip old (enc_data z ++ r) = DOk z r.
Proof.
  intros Hz. unfold dec_data. rewrite enc_data_flds, <- app_comm_cons, (map_into skip (field_data skip) (flds_data z) 4); [|by apply flds_data_into|done|done]. by destruct z.
Qed.
Lemma data_cut skip z old p : wf_data z -> cut p (enc_data z) -> dec_data skip old p = DEof \/ dec_data skip old p = DFail.
Proof. intros Hz. rewrite enc_data_flds. intros Hc. eapply (map_into_cut skip (field_data skip) (flds_data z) 4); [by apply flds_data_into|done|done|done]. Qed.

(** ** Sizes *)
Lemma be_len k n : length (be k n) = k.
Proof. induction k as [|k IH]; [done|]. cbn [be length]. by rewrite IH. Qed.
Ltac sizes := repeat match goal with |- context [if ?c then _ else _] => destruct c end; cbn [length]; rewrite ?be_len; lia.
Lemma uint64_len n : length (write_uint64 n) <= 9.
Proof. unfold write_uint64. sizes. Qed.
Lemma string_len s : length (write_string s) <= 5 + length s.
Proof. unfold write_string. rewrite app_length. sizes. Qed.
Lemma bytes_len s : length (write_bytes s) <= 5 + length s.
Proof. unfold write_bytes. rewrite app_length. sizes. Qed.
Lemma header_len n : length (write_array_header n) <= 5.
Proof. unfold write_array_header. sizes. Qed.
Lemma concat_len {A} (f : A -> bytes) (size : A -> nat) l : (forall x, length (f x) <= size x) -> length (concat (map f l)) <= sum_list (map size l).
Proof. intros H. induction l as [|x l IH]; [done|]. cbn [map concat]. rewrite app_length. specialize (H x). change (sum_list (map size (x :: l))) with (size x + sum_list (map size l)). apply Nat.add_le_mono; [exact H|exact IH]. Qed.
Lemma row_len z : length (enc_row z) <= size_row z.
Proof. unfold enc_row, size_row, prefix_size, uint64_size. rewrite !app_length. cbn [length]. pose proof (string_len (dr_commit z)). pose proof (string_len (dr_path z)). pose proof (uint64_len (dr_blame z)). lia. Qed.
Lemma sum_const {A} (l : list A) k : sum_list (map (fun _ => k) l) = length l * k.
Proof. induction l as [|x l IH]; [done|]. change (k + sum_list (map (fun _ : A => k) l) = S (length l) * k). rewrite IH. lia. Qed.
Lemma blame_len z : length (enc_blame z) <= size_blame z.
Proof.
  unfold enc_blame, size_blame, prefix_size, uint64_size. rewrite !app_length. cbn [length write_bool]. pose proof (uint64_len (db_pointer z)). pose proof (string_len (db_commit z)).
  pose proof (header_len (N.of_nat (length (db_lines z)))). pose proof (concat_len write_uint64 (fun _ => 9) (db_lines z) uint64_len) as K. rewrite sum_const in K. lia.
Qed.
Lemma line_len z : length (enc_line z) <= size_line z.
Proof. unfold enc_line, size_line, prefix_size, uint64_size. rewrite !app_length. cbn [length]. pose proof (uint64_len (dl_pointer z)). pose proof (string_len (dl_commit z)). pose proof (uint64_len (dl_data z)). lia. Qed.
Lemma ldata_len z : length (enc_ldata z) <= size_ldata z.
Proof. unfold enc_ldata, size_ldata, prefix_size, uint64_size. rewrite !app_length. cbn [length]. pose proof (uint64_len (dd_pointer z)). pose proof (bytes_len (dd_data z)). lia. Qed.
Lemma items_len {A} (f : A -> bytes) (size : A -> nat) l : (forall x, length (f x) <= size x) -> length (enc_items f l) <= 5 + sum_list (map size l).
Proof. intros H. unfold enc_items. rewrite app_length. pose proof (header_len (N.of_nat (length l))). pose proof (concat_len f size l H). lia. Qed.
Lemma data_len z : length (enc_data z) <= size_data z.
Proof.
  unfold enc_data, size_data, prefix_size. rewrite !app_length. cbn [length]. pose proof (items_len enc_row size_row (da_rows z) row_len). pose proof (items_len enc_blame size_blame (da_blames z) blame_len).
  pose proof (items_len enc_line size_line (da_lines z) line_len). pose proof (items_len enc_ldata size_ldata (da_ldata z) ldata_len). lia.
Qed.
Lemma into_decodes {R} (wf : R -> Prop) enc dec : into wf enc dec -> decodes_into wf enc dec.
Proof. intros H z Hz. split; [intros old r; by apply (H old)|]. intros old p z' r Hc E. destruct (co_cut _ _ _ (H old) z p Hz Hc) as [E'|E']; rewrite E in E'; discriminate. Qed.
Lemma data_decodes skip : decodes_into wf_data enc_data (dec_data skip).
Proof. intros z Hz. split; [intros old r; by apply data_round_trip|]. intros old p z' r Hc E. destruct (data_cut skip z old p Hz Hc) as [E'|E']; rewrite E in E'; discriminate. Qed.
