(** * Decoding of encoded records, and of streams that end too early *)
From Verif.Model Require Import Base Msgp.
From Verif.Spec Require Import Checkpoint.
From Coq Require Import Lia.

#[local] Open Scope N_scope.

(** ** Numbers *)
Lemma byte_N n : n < 256 -> N_of_ascii (byte n) = n.
Proof. intros. unfold byte. by apply N_ascii_embedding. Qed.
Lemma be_length k n : length (be k n) = k.
Proof. induction k; cbn; congruence. Qed.
Lemma unbe_be k n acc : unbe acc (be k n) = acc * 256 ^ N.of_nat k + n mod 256 ^ N.of_nat k.
Proof.
  revert acc. induction k as [|k IH]; intros acc; [cbn; rewrite N.mod_1_r; lia|].
  change (unbe acc (be (S k) n)) with (unbe (acc * 256 + N_of_ascii (byte ((n / 256 ^ N.of_nat k) mod 256))) (be k n)).
  rewrite IH, byte_N by (apply N.mod_lt; lia).
  rewrite Nat2N.inj_succ, N.pow_succ_r'. set (P := 256 ^ N.of_nat k).
  assert (P <> 0) by (unfold P; by apply N.pow_nonzero).
  rewrite (N.mul_comm 256 P), N.mod_mul_r by lia. nia.
Qed.

(** ** Primitives *)

(** [rd] reads back exactly the bytes [w] of the value [v], and a proper prefix of them is an unexpected end. *)
Definition reads {A} (rd : bytes -> pres A) (w : bytes) (v : A) : Prop :=
  (forall r, rd (w ++ r) = POk v r) /\ forall p q, w = p ++ q -> q <> [] -> rd p = PEof.

Lemma reads_ret {A} (v : A) : reads (fun r => POk v r) [] v.
Proof. split; [done|]. intros p q E Hq. symmetry in E. apply app_eq_nil in E as [_ ->]. done. Qed.
Lemma reads_bind {A C} (rd : bytes -> pres A) (f : A -> bytes -> pres C) w v w' v' :
  reads rd w v -> reads (f v) w' v' -> reads (fun s => pbind (rd s) f) (w ++ w') v'.
Proof.
  intros [H1 H1'] [H2 H2']. split.
  - intros r. rewrite <-app_assoc, H1. cbn. apply H2.
  - intros p q E Hq. apply app_eq_app in E as (l & [[E1 E2]|[E1 E2]]).
    + destruct (decide (l = [])) as [->|Hl].
      * rewrite app_nil_r in E1. cbn in E2. subst p q. rewrite <-(app_nil_r w), H1. cbn. by eapply (H2' [] w').
      * rewrite (H1' p l) by done. done.
    + subst p. rewrite H1. cbn. by eapply H2'.
Qed.
Lemma reads_ext {A} (rd rd' : bytes -> pres A) w v : (forall s, rd s = rd' s) -> reads rd w v -> reads rd' w v.
Proof. intros E [H H']. split; intros; rewrite <-E; eauto. Qed.
Lemma reads_lead n : n < 256 -> reads read_lead [byte n] n.
Proof.
  intros Hn. split; [intros r; cbn; by rewrite byte_N|]. intros p q E Hq. destruct p as [|c p]; [done|].
  injection E as _ E. symmetry in E. by apply app_eq_nil in E as [_ ->].
Qed.
Lemma reads_n s : reads (read_n (len s)) s s.
Proof.
  unfold read_n, len. split.
  - intros r. rewrite app_length. rewrite (proj2 (N.leb_le _ _)) by lia. rewrite Nat2N.id. by rewrite take_app, drop_app.
  - intros p q -> Hq. rewrite app_length. rewrite (proj2 (N.leb_gt _ _)); [done|]. destruct q; [done|]. cbn. lia.
Qed.
Lemma reads_be k n : n < 256 ^ N.of_nat k -> reads (read_be k) (be k n) n.
Proof.
  intros Hn. unfold read_be. rewrite <-(app_nil_r (be k n)). eapply (reads_bind (read_n (N.of_nat k))).
  - pose proof (reads_n (be k n)) as H. unfold len in H. by rewrite be_length in H.
  - rewrite unbe_be, N.mod_small, N.mul_0_l, N.add_0_l by done. apply reads_ret.
Qed.

(** A lead byte selects the continuation. *)
Lemma reads_tag {A} (f : N -> bytes -> pres A) t w v : t < 256 -> reads (f t) w v ->
  reads (fun s => pbind (read_lead s) f) (byte t :: w) v.
Proof. intros Ht Hf. by apply (reads_bind read_lead f [byte t] t w v (reads_lead t Ht)). Qed.

Lemma reads_uint64 n : n < 18446744073709551616 -> reads read_uint64 (write_uint64 n) n.
Proof.
  intros Hn. unfold write_uint64, read_uint64.
  destruct (N.ltb_spec n 128); [apply (reads_tag _ n []); [lia|rewrite (proj2 (N.ltb_lt n 128)) by lia; apply reads_ret]|].
  destruct (N.ltb_spec n 256); [apply (reads_tag _ 204); [lia|cbv beta iota; by apply (reads_be 1)]|].
  destruct (N.ltb_spec n 65536); [apply (reads_tag _ 205); [lia|by apply (reads_be 2)]|].
  destruct (N.ltb_spec n 4294967296); [apply (reads_tag _ 206); [lia|by apply (reads_be 4)]|].
  apply (reads_tag _ 207); [lia|by apply (reads_be 8)].
Qed.

Lemma str_header s : small s ->
  exists t w, (if len s <? 32 then [byte (160 + len s)] else if len s <? 256 then byte 217 :: be 1 (len s)
     else if len s <? 65536 then byte 218 :: be 2 (len s) else byte 219 :: be 4 (len s)) = byte t :: w /\ t < 256 /\
    exists rd, (forall r, read_str_header t r = Some (rd r)) /\ reads rd w (len s).
Proof.
  intros Hs. unfold small in Hs. unfold read_str_header.
  destruct (N.ltb_spec (len s) 32).
  { exists (160 + len s), []. split; [done|]. split; [lia|]. exists (fun r => POk (len s) r). split; [|apply reads_ret].
    intros r. rewrite (proj2 (N.leb_le 160 _)), (proj2 (N.ltb_lt _ 192)) by lia. cbn [andb]. do 2 f_equal. lia. }
  destruct (N.ltb_spec (len s) 256).
  { exists 217, (be 1 (len s)). split; [done|]. split; [lia|]. exists (read_be 1). split; [done|by apply (reads_be 1)]. }
  destruct (N.ltb_spec (len s) 65536).
  { exists 218, (be 2 (len s)). split; [done|]. split; [lia|]. exists (read_be 2). split; [done|by apply (reads_be 2)]. }
  exists 219, (be 4 (len s)). split; [done|]. split; [lia|]. exists (read_be 4). split; [done|by apply (reads_be 4)].
Qed.
Lemma reads_string s : small s -> reads read_string (write_string s) s.
Proof.
  intros Hs. unfold write_string, read_string. destruct (str_header s Hs) as (t & w & -> & Ht & rd & Hrd & Hr).
  cbn [app]. apply reads_tag; [done|]. eapply reads_ext; [intros r; by rewrite Hrd|].
  eapply (reads_bind rd read_n); [exact Hr|apply reads_n].
Qed.
Lemma reads_key s : len s < 32 -> reads read_key (byte (160 + len s) :: s) s.
Proof.
  intros Hs. unfold read_key. apply reads_tag; [lia|]. unfold read_str_header.
  rewrite (proj2 (N.leb_le 160 _)), (proj2 (N.ltb_lt _ 192)) by lia. cbn [andb].
  replace (160 + len s - 160) with (len s) by lia. apply (reads_bind (fun r => POk (len s) r) read_n [] (len s)); [apply reads_ret|apply reads_n].
Qed.
Lemma reads_bytes s : small s -> reads read_bytes (write_bytes s) s.
Proof.
  intros Hs. unfold small in Hs. unfold write_bytes, read_bytes.
  destruct (N.ltb_spec (len s) 256).
  { cbn [app]. apply (reads_tag _ 196); [lia|]. change (read_bin_header 196) with (fun r => Some (read_be 1 r)).
    eapply (reads_bind (read_be 1) read_n); [by apply (reads_be 1)|apply reads_n]. }
  destruct (N.ltb_spec (len s) 65536).
  { cbn [app]. apply (reads_tag _ 197); [lia|]. eapply (reads_bind (read_be 2) read_n); [by apply (reads_be 2)|apply reads_n]. }
  cbn [app]. apply (reads_tag _ 198); [lia|]. eapply (reads_bind (read_be 4) read_n); [by apply (reads_be 4)|apply reads_n].
Qed.
Lemma reads_array_header n : n < 4294967296 -> reads read_array_header (write_array_header n) n.
Proof.
  intros Hn. unfold write_array_header, read_array_header.
  destruct (N.ltb_spec n 16).
  { apply (reads_tag _ (144 + n) []); [lia|]. rewrite (proj2 (N.leb_le 144 _)), (proj2 (N.ltb_lt _ 160)) by lia. cbn [andb].
    replace (144 + n - 144) with n by lia. apply reads_ret. }
  destruct (N.ltb_spec n 65536); [apply (reads_tag _ 220); [lia|by apply (reads_be 2)]|].
  apply (reads_tag _ 221); [lia|by apply (reads_be 4)].
Qed.
Lemma reads_map_header n : n < 16 -> reads read_map_header [byte (128 + n)] n.
Proof.
  intros Hn. unfold read_map_header. apply (reads_tag _ (128 + n) []); [lia|].
  rewrite (proj2 (N.leb_le 128 _)), (proj2 (N.ltb_lt _ 144)) by lia. cbn [andb]. replace (128 + n - 128) with n by lia. apply reads_ret.
Qed.
Lemma reads_bool b : reads read_bool (write_bool b) b.
Proof. unfold write_bool, read_bool. destruct b; (apply (reads_tag _ _ []); [lia|apply reads_ret]). Qed.
Lemma reads_uint64s ns : Forall (fun n => n < 18446744073709551616) ns ->
  reads (read_uint64s (length ns)) (concat (map write_uint64 ns)) ns.
Proof.
  induction 1 as [|n ns Hn _ IH]; [apply reads_ret|]. cbn [map concat length read_uint64s].
  eapply (reads_bind read_uint64); [by apply reads_uint64|]. rewrite <-(app_nil_r (concat _)).
  eapply (reads_bind (read_uint64s (length ns))); [exact IH|]. apply reads_ret.
Qed.
Lemma reads_array ns : Forall (fun n => n < 18446744073709551616) ns -> N.of_nat (length ns) < 4294967296 ->
  reads (fun s => pbind (read_array_header s) (fun n r => read_uint64s (N.to_nat n) r))
        (write_array_header (N.of_nat (length ns)) ++ concat (map write_uint64 ns)) ns.
Proof.
  intros Hns Hl. eapply reads_bind; [by apply reads_array_header|]. cbv beta. rewrite Nat2N.id. by apply reads_uint64s.
Qed.

(** ** Records *)

Lemma cut_nil p : ~ cut p [].
Proof. intros (q & Hq & E). symmetry in E. by apply app_eq_nil in E as [_ ->]. Qed.
Lemma cut_app p a b : cut p (a ++ b) -> cut p a \/ exists p', p = a ++ p' /\ cut p' b.
Proof.
  intros (q & Hq & E). apply app_eq_app in E as (l & [[E1 E2]|[E1 E2]]).
  - destruct (decide (l = [])) as [->|Hl]; [|left; by exists l].
    right. exists []. rewrite app_nil_r in *. split; [done|]. exists q. split; [done|]. by rewrite E2.
  - right. exists l. split; [done|]. by exists q.
Qed.

Section record.
  Context (skip : bytes -> pres unit) {R : Type} (field : bytes -> R -> bytes -> option (dres R)).

  (** A record as a sequence of fields: the bytes of key and value, and the effect. *)
  Record fld := Fld { fl_key : bytes; fl_val : bytes; fl_set : R -> R }.
  Definition fld_ok (f : fld) : Prop :=
    exists key A (rd : bytes -> pres A) (v : A) (set : R -> A -> R),
      reads read_key (fl_key f) key /\ (forall z s, field key z s = Some (in_field (rd s) (set z))) /\
      reads rd (fl_val f) v /\ forall z, set z v = fl_set f z.
  Definition flds_bytes (fs : list fld) : bytes := concat (map (fun f => fl_key f ++ fl_val f) fs).

  Lemma dec_fields_ok fs z r : Forall fld_ok fs ->
    dec_fields skip field (length fs) z (flds_bytes fs ++ r) = DOk (foldl (fun z f => fl_set f z) z fs) r.
  Proof.
    intros H. revert z. induction H as [|f fs (key & A & rd & v & set & [Hk _] & Hf & [Hv _] & Hset) _ IH]; intros z; [done|].
    unfold flds_bytes. cbn [map concat length dec_fields]. fold (flds_bytes fs). rewrite <-!app_assoc, Hk, Hf, Hv. cbn. rewrite Hset. apply IH.
  Qed.
  (** A proper prefix is never accepted; it is reported as a plain end exactly if it does not end in (or directly before) a value. *)
  Lemma dec_fields_cut fs z p : Forall fld_ok fs -> cut p (flds_bytes fs) ->
    exists f p', f ∈ fs /\
      ((cut p' (fl_key f) /\ dec_fields skip field (length fs) z p = DEof /\
         (exists a b, fs = a ++ f :: b /\ p = flds_bytes a ++ p')) \/
       (cut p' (fl_val f) /\ dec_fields skip field (length fs) z p = DFail /\
         (exists a b, fs = a ++ f :: b /\ p = flds_bytes a ++ fl_key f ++ p'))).
  Proof.
    intros H. revert z p. induction H as [|f fs (key & A & rd & v & set & [Hk Hk'] & Hf & [Hv Hv'] & Hset) _ IH]; intros z p Hc; [by apply cut_nil in Hc|].
    unfold flds_bytes in Hc. cbn [map concat] in Hc. fold (flds_bytes fs) in Hc. cbn [length dec_fields].
    apply cut_app in Hc as [Hc|(p' & -> & Hc)].
    - exists f. apply cut_app in Hc as [Hc|(p' & -> & Hc)].
      + exists p. split; [by constructor|]. left. split; [done|]. destruct Hc as (q & Hq & E). rewrite (Hk' p q E Hq). split; [done|]. by exists [], fs.
      + exists p'. split; [by constructor|]. right. split; [done|]. destruct Hc as (q & Hq & E). rewrite Hk, Hf, (Hv' p' q E Hq). split; [done|]. by exists [], fs.
    - rewrite <-app_assoc, Hk, Hf, Hv. cbn. destruct (IH (set z v) p' Hc) as (g & p'' & Hg & Hcase).
      exists g, p''. split; [by constructor|].
      destruct Hcase as [(C & E & a & b & -> & ->)|(C & E & a & b & -> & ->)]; [left|right];
        (split; [done|]; split; [done|]; exists (f :: a), b; split; [done|]; unfold flds_bytes; cbn; by rewrite <-!app_assoc).
  Qed.

  Lemma dec_map_ok zero fs n r : Forall fld_ok fs -> n = N.of_nat (length fs) -> n < 16 ->
    dec_map skip field zero (byte (128 + n) :: flds_bytes fs ++ r) = DOk (foldl (fun z f => fl_set f z) zero fs) r.
  Proof.
    intros Hf -> Hn. unfold dec_map. destruct (reads_map_header _ Hn) as [H _].
    change (byte (128 + N.of_nat (length fs)) :: flds_bytes fs ++ r) with ([byte (128 + N.of_nat (length fs))] ++ (flds_bytes fs ++ r)).
    rewrite H, Nat2N.id. by apply dec_fields_ok.
  Qed.
  Lemma dec_map_cut zero fs n p : Forall fld_ok fs -> n = N.of_nat (length fs) -> n < 16 -> cut p (byte (128 + n) :: flds_bytes fs) ->
    dec_map skip field zero p = DEof \/ dec_map skip field zero p = DFail.
  Proof.
    intros Hf -> Hn Hc. unfold dec_map. destruct (reads_map_header _ Hn) as [H H'].
    change (byte (128 + N.of_nat (length fs)) :: flds_bytes fs) with ([byte (128 + N.of_nat (length fs))] ++ flds_bytes fs) in Hc.
    apply cut_app in Hc as [(q & Hq & E)|(p' & -> & Hc)].
    - rewrite (H' p q E Hq). by left.
    - rewrite H, Nat2N.id. destruct (dec_fields_cut fs zero p' Hf Hc) as (f & p'' & _ & [(_ & -> & _)|(_ & -> & _)]); auto.
  Qed.
  (** A cut in a value is an error that is not taken for the end of the stream. *)
  Lemma dec_map_cut_value zero a f b n p : Forall fld_ok (a ++ f :: b) -> n = N.of_nat (length (a ++ f :: b)) -> n < 16 -> cut p (fl_val f) ->
    dec_map skip field zero (byte (128 + n) :: flds_bytes a ++ fl_key f ++ p) = DFail.
  Proof.
    intros Hf -> Hn (q & Hq & E). unfold dec_map. destruct (reads_map_header _ Hn) as [H _].
    match goal with |- context [read_map_header (?c :: ?s)] => change (c :: s) with ([c] ++ s) end.
    rewrite H, Nat2N.id. apply Forall_app in Hf as [Ha Hfb]. apply Forall_cons in Hfb as [(key & A & rd & v & set & [Hk _] & Hfi & [_ Hv'] & _) _].
    rewrite app_length. cbn [length]. clear Hn H. revert zero. induction Ha as [|g a (key' & A' & rd' & v' & set' & [Hk2 _] & Hf2 & [Hv2 _] & _) _ IH]; intros zero.
    - cbn [length flds_bytes map concat app Nat.add dec_fields]. rewrite Hk, Hfi, (Hv' p q E Hq). done.
    - unfold flds_bytes. cbn [map concat length Nat.add dec_fields]. fold (flds_bytes a). rewrite <-!app_assoc, Hk2, Hf2, Hv2. cbn. apply IH.
  Qed.
End record.
Arguments Fld {R}. Arguments fl_key {R}. Arguments fl_val {R}. Arguments fl_set {R}. Arguments flds_bytes {R}.

(** ** The four record types *)
Definition flds_row (z : drow) : list (fld (R := drow)) :=
  [Fld [byte 161; byte 99] (write_string (dr_commit z)) (fun y => DRow (dr_commit z) (dr_path y) (dr_blame y));
   Fld [byte 161; byte 112] (write_string (dr_path z)) (fun y => DRow (dr_commit y) (dr_path z) (dr_blame y));
   Fld [byte 162; byte 98; byte 112] (write_uint64 (dr_blame z)) (fun y => DRow (dr_commit y) (dr_path y) (dr_blame z))].
Definition flds_blame (z : dblame) : list (fld (R := dblame)) :=
  [Fld [byte 161; byte 112] (write_uint64 (db_pointer z)) (fun y => DBlame (db_pointer z) (db_commit y) (db_lines y) (db_binary y));
   Fld [byte 161; byte 99] (write_string (db_commit z)) (fun y => DBlame (db_pointer y) (db_commit z) (db_lines y) (db_binary y));
   Fld [byte 162; byte 108; byte 112] (write_array_header (N.of_nat (length (db_lines z))) ++ concat (map write_uint64 (db_lines z)))
     (fun y => DBlame (db_pointer y) (db_commit y) (db_lines z) (db_binary y));
   Fld [byte 162; byte 105; byte 98] (write_bool (db_binary z)) (fun y => DBlame (db_pointer y) (db_commit y) (db_lines y) (db_binary z))].
Definition flds_line (z : dline) : list (fld (R := dline)) :=
  [Fld [byte 161; byte 112] (write_uint64 (dl_pointer z)) (fun y => DLine (dl_pointer z) (dl_commit y) (dl_data y));
   Fld [byte 161; byte 99] (write_string (dl_commit z)) (fun y => DLine (dl_pointer y) (dl_commit z) (dl_data y));
   Fld [byte 163; byte 108; byte 100; byte 112] (write_uint64 (dl_data z)) (fun y => DLine (dl_pointer y) (dl_commit y) (dl_data z))].
Definition flds_ldata (z : dldata) : list (fld (R := dldata)) :=
  [Fld [byte 161; byte 112] (write_uint64 (dd_pointer z)) (fun y => DLData (dd_pointer z) (dd_data y));
   Fld [byte 161; byte 100] (write_bytes (dd_data z)) (fun y => DLData (dd_pointer y) (dd_data z))].

Lemma enc_row_flds z : enc_row z = byte (128 + 3) :: flds_bytes (flds_row z).
Proof. unfold enc_row, flds_row, flds_bytes. cbn [map concat fl_key fl_val app]. rewrite <-?app_assoc, ?app_nil_r. done. Qed.
Lemma enc_blame_flds z : enc_blame z = byte (128 + 4) :: flds_bytes (flds_blame z).
Proof. unfold enc_blame, flds_blame, flds_bytes. cbn [map concat fl_key fl_val app]. rewrite <-?app_assoc, ?app_nil_r. done. Qed.
Lemma enc_line_flds z : enc_line z = byte (128 + 3) :: flds_bytes (flds_line z).
Proof. unfold enc_line, flds_line, flds_bytes. cbn [map concat fl_key fl_val app]. rewrite <-?app_assoc, ?app_nil_r. done. Qed.
Lemma enc_ldata_flds z : enc_ldata z = byte (128 + 2) :: flds_bytes (flds_ldata z).
Proof. unfold enc_ldata, flds_ldata, flds_bytes. cbn [map concat fl_key fl_val app]. rewrite <-?app_assoc, ?app_nil_r. done. Qed.

Ltac a_key s := exact (reads_key (B s) ltac:(vm_compute; reflexivity)).
Lemma flds_row_ok z : wf_row z -> Forall (fld_ok field_row) (flds_row z).
Proof.
  intros (H1 & H2 & H3). repeat apply Forall_cons_2; [| | |constructor].
  - exists (B "c"), bytes, read_string, (dr_commit z). eexists. split; [a_key "c"%string|]. split; [done|]. split; [by apply reads_string|done].
  - exists (B "p"), bytes, read_string, (dr_path z). eexists. split; [a_key "p"%string|]. split; [done|]. split; [by apply reads_string|done].
  - exists (B "bp"), N, read_uint64, (dr_blame z). eexists. split; [a_key "bp"%string|]. split; [done|]. split; [by apply reads_uint64|done].
Qed.
Lemma flds_blame_ok z : wf_dblame z -> Forall (fld_ok field_blame) (flds_blame z).
Proof.
  intros (H1 & H2 & H3 & H4). repeat apply Forall_cons_2; [| | | |constructor].
  - exists (B "p"), N, read_uint64, (db_pointer z). eexists. split; [a_key "p"%string|]. split; [done|]. split; [by apply reads_uint64|done].
  - exists (B "c"), bytes, read_string, (db_commit z). eexists. split; [a_key "c"%string|]. split; [done|]. split; [by apply reads_string|done].
  - eexists (B "lp"), (list N), _, (db_lines z). eexists. split; [a_key "lp"%string|]. split; [done|]. split; [by apply reads_array|done].
  - exists (B "ib"), bool, read_bool, (db_binary z). eexists. split; [a_key "ib"%string|]. split; [done|]. split; [apply reads_bool|done].
Qed.
Lemma flds_line_ok z : wf_dline z -> Forall (fld_ok field_line) (flds_line z).
Proof.
  intros (H1 & H2 & H3). repeat apply Forall_cons_2; [| | |constructor].
  - exists (B "p"), N, read_uint64, (dl_pointer z). eexists. split; [a_key "p"%string|]. split; [done|]. split; [by apply reads_uint64|done].
  - exists (B "c"), bytes, read_string, (dl_commit z). eexists. split; [a_key "c"%string|]. split; [done|]. split; [by apply reads_string|done].
  - exists (B "ldp"), N, read_uint64, (dl_data z). eexists. split; [a_key "ldp"%string|]. split; [done|]. split; [by apply reads_uint64|done].
Qed.
Lemma flds_ldata_ok z : wf_ldata z -> Forall (fld_ok field_ldata) (flds_ldata z).
Proof.
  intros (H1 & H2). repeat apply Forall_cons_2; [| |constructor].
  - exists (B "p"), N, read_uint64, (dd_pointer z). eexists. split; [a_key "p"%string|]. split; [done|]. split; [by apply reads_uint64|done].
  - exists (B "d"), bytes, read_bytes, (dd_data z). eexists. split; [a_key "d"%string|]. split; [done|]. split; [by apply reads_bytes|done].
Qed.

(** [dec] is a decoder for the encoding [enc] of the records in [wf]: exact, and no proper prefix is a record. *)
Record codec {R} (wf : R -> Prop) (enc : R -> bytes) (dec : bytes -> dres R) : Prop := Codec {
  co_dec : forall z r, wf z -> dec (enc z ++ r) = DOk z r;
  co_cut : forall z p, wf z -> cut p (enc z) -> dec p = DEof \/ dec p = DFail;
  co_nil : dec [] = DEof;
  co_ne : forall z, enc z <> [] }.

Lemma codec_row skip : codec wf_row enc_row (dec_row skip).
Proof.
  split; [| |done|done].
  - intros z r Hz. rewrite enc_row_flds. unfold dec_row. rewrite <-app_comm_cons, (dec_map_ok skip field_row _ (flds_row z) 3); [|by apply flds_row_ok|done|done].
    by destruct z.
  - intros z p Hz Hc. rewrite enc_row_flds in Hc. eapply (dec_map_cut skip field_row _ (flds_row z) 3); [by apply flds_row_ok|done|done|done].
Qed.
Lemma codec_blame skip : codec wf_dblame enc_blame (dec_blame skip).
Proof.
  split; [| |done|done].
  - intros z r Hz. rewrite enc_blame_flds. unfold dec_blame. rewrite <-app_comm_cons, (dec_map_ok skip field_blame _ (flds_blame z) 4); [|by apply flds_blame_ok|done|done].
    by destruct z.
  - intros z p Hz Hc. rewrite enc_blame_flds in Hc. eapply (dec_map_cut skip field_blame _ (flds_blame z) 4); [by apply flds_blame_ok|done|done|done].
Qed.
Lemma codec_line skip : codec wf_dline enc_line (dec_line skip).
Proof.
  split; [| |done|done].
  - intros z r Hz. rewrite enc_line_flds. unfold dec_line. rewrite <-app_comm_cons, (dec_map_ok skip field_line _ (flds_line z) 3); [|by apply flds_line_ok|done|done].
    by destruct z.
  - intros z p Hz Hc. rewrite enc_line_flds in Hc. eapply (dec_map_cut skip field_line _ (flds_line z) 3); [by apply flds_line_ok|done|done|done].
Qed.
Lemma codec_ldata skip : codec wf_ldata enc_ldata (dec_ldata skip).
Proof.
  split; [| |done|done].
  - intros z r Hz. rewrite enc_ldata_flds. unfold dec_ldata. rewrite <-app_comm_cons, (dec_map_ok skip field_ldata _ (flds_ldata z) 2); [|by apply flds_ldata_ok|done|done].
    by destruct z.
  - intros z p Hz Hc. rewrite enc_ldata_flds in Hc. eapply (dec_map_cut skip field_ldata _ (flds_ldata z) 2); [by apply flds_ldata_ok|done|done|done].
Qed.

(** ** Streams *)
Section stream.
  Context {R} (wf : R -> Prop) (enc : R -> bytes) (dec : bytes -> dres R) (HC : codec wf enc dec).

  Lemma dec_stream_app l p f : Forall wf l -> (length l <= f)%nat ->
    dec_stream dec f (write_stream enc l ++ p) = let x := dec_stream dec (f - length l) p in (l ++ x.1, x.2).
  Proof.
    intros H. revert f. induction H as [|z l Hz _ IH]; intros f Hf.
    - cbn [length]. rewrite Nat.sub_0_r. cbn. by destruct (dec_stream dec f p).
    - unfold write_stream. cbn [map concat]. fold (write_stream enc l). rewrite <-app_assoc. cbn [length] in *.
      destruct f as [|f]; [lia|]. cbn [dec_stream]. rewrite (co_dec _ _ _ HC z _ Hz), IH by lia. done.
  Qed.
  Lemma stream_length l : (length l <= length (write_stream enc l))%nat.
  Proof.
    induction l as [|z l IH]; [cbn; lia|]. unfold write_stream. cbn [map concat length]. fold (write_stream enc l). rewrite app_length.
    pose proof (co_ne _ _ _ HC z). destruct (enc z); [done|]. cbn. lia.
  Qed.
  Lemma stream_ok l : Forall wf l -> read_stream dec (write_stream enc l) = (l, true).
  Proof.
    intros H. unfold read_stream. pose proof (stream_length l). rewrite <-(app_nil_r (write_stream enc l)) at 2. rewrite dec_stream_app by done.
    destruct (length (write_stream enc l) - length l)%nat; cbn [dec_stream]; rewrite (co_nil _ _ _ HC); cbn; by rewrite app_nil_r.
  Qed.
  Lemma dec_stream_end f p : dec p = DEof \/ dec p = DFail -> dec_stream dec f p = ([], match dec p with DEof => true | _ => false end).
  Proof. intros [E|E]; destruct f; cbn [dec_stream]; by rewrite E. Qed.
  (** Where a stream is cut. *)
  Lemma stream_cut l p : cut p (write_stream enc l) -> exists l1 z l2 p', l = l1 ++ z :: l2 /\ p = write_stream enc l1 ++ p' /\ cut p' (enc z).
  Proof.
    revert p. induction l as [|z l IH]; intros p Hc; [by apply cut_nil in Hc|]. unfold write_stream in Hc. cbn [map concat] in Hc. fold (write_stream enc l) in Hc.
    apply cut_app in Hc as [Hc|(p' & -> & Hc)].
    - by exists [], z, l, p.
    - destruct (IH _ Hc) as (l1 & y & l2 & p'' & -> & -> & H). exists (z :: l1), y, l2, p''. split; [done|]. split; [|done].
      unfold write_stream. cbn [map concat]. by rewrite <-app_assoc.
  Qed.
  (** Reading a stream that is cut short gives the records before the cut, or an error. *)
  Lemma read_cut l1 z p' : Forall wf l1 -> wf z -> cut p' (enc z) ->
    read_stream dec (write_stream enc l1 ++ p') = (l1, match dec p' with DEof => true | _ => false end).
  Proof.
    intros H1 Hz Hc. unfold read_stream. pose proof (stream_length l1). rewrite dec_stream_app; [|done|rewrite app_length; lia].
    pose proof (co_cut _ _ _ HC z p' Hz Hc) as Hd. rewrite dec_stream_end by done. cbn. by rewrite app_nil_r.
  Qed.
End stream.
