(** * Records per file: proofs of C47-C52 *)
From Verif.Model Require Import Base GoStrings IncBlame Process CommitMeta FileInfo CodeInfo.
From Verif.Spec Require Import Text Processing Records.
From Verif.Proofs Require Import TextLemmas RecordProofs.
From Coq Require Import Lia.

Section More.
Context {T L : Type} (zt : T) (cl : classifiers L) (count : bytes -> bytes -> bytes -> list (Z * line_type) * totals).
Context (meta : gmap bytes (mcommit T)).
Notation records := (code_info_files zt cl count meta).

Lemma lookup_map {A B} (f : A -> B) l i : map f l !! i = f <$> l !! i.
Proof. apply list_lookup_fmap. Qed.

Lemma used_ok cache : used_cache cl cache -> cache_ok cl cache.
Proof.
  induction 1 as [|cache p content lines i cache' _ IH E]; [apply cache_ok_empty|].
  pose proof (get_info_cached cl cache p content lines IH) as H. rewrite E in H. apply H.
Qed.

Lemma history_irrelevant cache1 cache2 p content lines :
  used_cache cl cache1 -> used_cache cl cache2 ->
  match get_info cl cache1 p content lines, get_info cl cache2 p content lines with
  | Ret (i1, _), Ret (i2, _) => i1 = i2
  | Err e1, Err e2 => e1 = e2
  | Panic m1, Panic m2 => m1 = m2
  | _, _ => False
  end.
Proof.
  intros H1%used_ok H2%used_ok. pose proof (get_info_cached cl cache1 p content lines H1) as A.
  pose proof (get_info_cached cl cache2 p content lines H2) as A2.
  destruct (get_info cl cache1 p content lines) as [[i1 c1]| |], (get_info cl cache2 p content lines) as [[i2 c2]| |];
    repeat match goal with H : _ /\ _ |- _ => destruct H end; congruence.
Qed.

(** A reason is never empty, and none is one of the two others. *)
Lemma violated_reason p content lines k r : violated cl p content lines k r -> r <> [] /\ r <> removed_file /\ r <> generated_file.
Proof. intros H. inversion H; subst; repeat split; cbn; discriminate. Qed.

Lemma limits cache p content lines i cache' :
  used_cache cl cache -> get_info cl cache p content lines = Ret (i, cache') ->
  (i_skip i = [] <-> none_violated cl p content lines) /\
  (i_skip i <> [] -> first_violated cl p content lines (i_skip i)) /\
  (forall r, first_violated cl p content lines r -> i_skip i = r) /\
  (i_skip i = [] -> i_language i = cl_language cl p content /\ i_language i <> []).
Proof.
  intros Hc%used_ok E. pose proof (get_info_cached cl cache p content lines Hc) as H. rewrite E in H. destruct H as [Hp _].
  apply pure_info_limits in Hp as [H1 H2]. split; [|split; [done|split]].
  - split; [intros Hs; by apply H2|]. intros Hn. destruct (decide (i_skip i = [])) as [|Hs]; [done|].
    destruct (H1 Hs) as (k & Hk & _). by apply Hn in Hk.
  - intros r Hr. destruct (decide (i_skip i = [])) as [Hs|Hs].
    + destruct (H2 Hs) as [Hn _]. destruct Hr as (k & Hk & _). by apply Hn in Hk.
    + apply H1 in Hs. by eapply first_violated_fun.
  - intros Hs. destruct (H2 Hs) as (_ & _ & ? & ?). done.
Qed.

Lemma kept_perm commit l l' : l ≡ₚ l' -> filter (kept commit (T := T)) l ≡ₚ filter (kept commit) l'.
Proof. apply filter_Permutation. Qed.

(** What a successful call computes. *)
Lemma records_inv order cache x c' rs :
  any_perm order -> used_cache cl cache -> records order cache x = Ret (c', rs) ->
  let commit := meta_of zt meta (r_commit x) in
  exists pbs, pbs ≡ₚ filter (kept commit) (map_to_list (r_files x)) /\ Forall2 (record_rel zt cl count meta commit) pbs rs.
Proof.
  intros Ho Hc%used_ok. unfold code_info_files. destruct (forallb _ _); [|done]. intros H.
  apply steps_ok in H as (_ & new & E & HF); [|done]. rewrite app_nil_l in E. subst new.
  eexists. split; [|exact HF]. apply filter_Permutation, Ho.
Qed.

Lemma record_filename commit pb r : record_rel zt cl count meta commit pb r -> br_filename r = pb.1 /\ br_commit r = commit.
Proof.
  intros (f & Hf & E). unfold record_of in E. case_decide; [injection E as <-; done|].
  destruct (pure_info _ _ _ _); cbn [obind] in E; [|done|done]. injection E as <-. case_bool_decide; [done|].
  unfold code_info_file. cbn [br_language br_filename br_commit]. destruct (count _ _ _) as [calls tot].
  destruct (process_calls _ _) as [ls gen]. done.
Qed.

Lemma rel_filenames commit pbs rs : Forall2 (record_rel zt cl count meta commit) pbs rs -> map br_filename rs = pbs.*1.
Proof.
  induction 1 as [|pb r pbs rs H _ IH]; [done|]. cbn [map]. rewrite IH. apply record_filename in H as [-> _]. done.
Qed.

(** The record of one path. *)
Lemma record_at order cache x c' rs r :
  any_perm order -> used_cache cl cache -> records order cache x = Ret (c', rs) -> r ∈ rs ->
  let commit := meta_of zt meta (r_commit x) in
  exists b f, r_files x !! br_filename r = Some b /\ mc_files commit !! br_filename r = Some f /\ br_filename r <> [] /\
    record_of zt cl count meta commit (br_filename r) b f = Ret r.
Proof.
  intros Ho Hc H Hr. apply records_inv in H as (pbs & Hp & HF); [|done..].
  apply elem_of_list_lookup in Hr as [i Hi]. destruct (Forall2_lookup_r _ _ _ _ _ HF Hi) as ([p b] & Hpb & Hrel).
  assert (Hin : (p, b) ∈ filter (kept (meta_of zt meta (r_commit x))) (map_to_list (r_files x))).
  { rewrite <- Hp. by eapply elem_of_list_lookup_2. }
  apply elem_of_list_filter in Hin as [[Hk1 Hk2] Hin]. apply elem_of_map_to_list in Hin.
  destruct (record_filename _ _ _ Hrel) as [Hfn _]. destruct Hrel as (f & Hf & E). cbn [fst snd] in *. rewrite Hfn.
  exists b, f. done.
Qed.

(** What a record says. *)
Definition record_facts (p : bytes) (b : blame) (f : cfile) (r : bresult T L) : Prop :=
  br_status r = cf_status f /\
  ((cf_status f = Removed /\ br_lines r = [] /\ br_skipped r = removed_file) \/
   (cf_status f <> Removed /\
    ((br_lines r = [] /\ first_violated cl p (text_of b) (map l_data (b_lines b)) (br_skipped r)) \/
     (none_violated cl p (text_of b) (map l_data (b_lines b)) /\
      let calls := calls_for cl count p b in
      let lang := cl_language cl p (text_of b) in
      (br_skipped r = generated_file /\ br_language r = [] /\ says_generated calls b \/
       br_skipped r = [] /\ br_language r = lang /\ lang <> [] /\ ~ says_generated calls b) /\
      br_size r = Z.of_nat (length (text_of b)) /\ br_totals r = (count p lang (text_of b)).2 /\
      br_lines r = map sl_line (process_calls (stats_lines zt meta b) calls).1)))).

Lemma stats_inv b : content_inv (map l_data (b_lines b)) [] (stats_lines zt meta b) false.
Proof.
  unfold stats_lines. split; [by rewrite !map_length|]. split.
  - intros i l c H1 H2. 
    rewrite lookup_map in H1. rewrite lookup_map in H2. destruct (b_lines b !! i) as [x|]; [|done]. cbn in H1, H2. injection H1 as <-. injection H2 as <-.
    cbn. split; [by left|]. split; [done|]. intros H. by apply elem_of_nil in H.
  - split; [done|]. intros (i & c & _ & H & _). by apply elem_of_nil in H.
Qed.

Lemma says_iff calls b : (process_calls (stats_lines zt meta b) calls).2 = true <-> says_generated calls b.
Proof.
  pose proof (calls_inv (map l_data (b_lines b)) calls [] _ _ (stats_inv b)) as H. cbn zeta in H. rewrite app_nil_l in H.
  destruct H as (_ & _ & H). unfold process_calls. rewrite H. unfold says_generated, reported. split.
  - intros (i & c & H1 & H2 & H3). rewrite lookup_map in H1.
    destruct (b_lines b !! i) as [l|] eqn:E; [|done]. cbn in H1. injection H1 as <-. by exists i, l.
  - intros (i & l & H1 & H2 & H3). exists i, (l_data l). split; [|done].
    by rewrite lookup_map, H1.
Qed.

Lemma record_of_facts commit p b f r : record_of zt cl count meta commit p b f = Ret r -> record_facts p b f r.
Proof.
  unfold record_of, record_facts. case_decide as Er; [intros [= <-]; split; [done|]; by left|].
  destruct (pure_info cl p (file_content b) (file_lines b)) as [i| |] eqn:Ep; cbn [obind]; [|done|done]. intros [= <-].
  apply pure_info_limits in Ep as [H1 H2]. change (file_content b) with (text_of b) in *. change (file_lines b) with (map l_data (b_lines b)) in *.
  case_bool_decide as Es.
  - split; [done|]. right. split; [done|]. left. split; [done|]. cbn [br_skipped]. by apply H1.
  - assert (i_skip i = []) as Hs by (by destruct (decide (i_skip i = []))). destruct (H2 Hs) as (Hn & Hl & Hlang & Hne).
    unfold code_info_file. change (file_content b) with (text_of b). cbn [br_language br_commit br_filename br_lines br_status br_skipped br_license]. rewrite Hlang in *.
    unfold calls_for. destruct (count p (cl_language cl p (text_of b)) (text_of b)) as [calls tot] eqn:Ec. cbn [fst snd].
    pose proof (says_iff calls b) as Hg. destruct (process_calls (stats_lines zt meta b) calls) as [ls gen]. cbn [fst snd] in *.
    cbn [br_status br_language br_size br_totals br_skipped br_lines].
    split; [done|]. right. split; [done|]. right. split; [done|]. split; [|done].
    destruct gen.
    + left. split; [done|]. split; [done|]. by apply Hg.
    + right. split; [done|]. split; [done|]. split; [done|]. intros Hx. by apply Hg in Hx.
Qed.

Lemma violated_first_skip p b r : first_violated cl p (text_of b) (map l_data (b_lines b)) r ->
  r <> [] /\ r <> removed_file /\ r <> generated_file /\ ~ none_violated cl p (text_of b) (map l_data (b_lines b)).
Proof.
  intros (k & Hk & _). destruct (violated_reason _ _ _ _ _ Hk) as (?&?&?). split; [done|]. split; [done|]. split; [done|]. intros Hn. by apply Hn in Hk.
Qed.

Lemma one_record_per_file order cache x commit cache' rs :
  any_perm order -> used_cache cl cache -> meta !! r_commit x = Some commit -> records order cache x = Ret (cache', rs) ->
  NoDup (map br_filename rs) /\
  (forall p, p ∈ map br_filename rs <-> p <> [] /\ is_Some (r_files x !! p) /\ is_Some (mc_files commit !! p)) /\
  forall r, r ∈ rs -> br_commit r = commit /\
    exists f, mc_files commit !! br_filename r = Some f /\ br_status r = cf_status f /\
      (br_skipped r = B "File was removed" <-> cf_status f = Removed) /\ (cf_status f = Removed -> br_lines r = []).
Proof.
  intros Ho Hc Hm H.
  assert (Hcm : meta_of zt meta (r_commit x) = commit) by (unfold meta_of; by rewrite Hm).
  pose proof (records_inv _ _ _ _ _ Ho Hc H) as (pbs & Hp & HF). rewrite Hcm in *.
  pose proof (rel_filenames _ _ _ HF) as Hfn.
  assert (Hperm : map br_filename rs ≡ₚ (filter (kept commit) (map_to_list (r_files x))).*1) by (rewrite Hfn; by rewrite Hp).
  split; [|split].
  - rewrite Hperm. assert (Hnd : NoDup ((map_to_list (r_files x)).*1)) by apply NoDup_fst_map_to_list.
    revert Hnd. generalize (map_to_list (r_files x)). clear. induction l as [|pb l IH]; [done|]. intros Hnd. cbn in Hnd.
    apply NoDup_cons in Hnd as [Hn Hnd]. rewrite filter_cons. case_decide; [|by apply IH]. cbn. apply NoDup_cons. split; [|by apply IH].
    intros Hin. apply Hn. apply elem_of_list_fmap in Hin as (y & E & Hy). apply elem_of_list_fmap. exists y. split; [done|].
    by apply elem_of_list_filter in Hy as [_ Hy].
  - intros p. rewrite Hperm. rewrite elem_of_list_fmap. split.
    + intros ([q b] & -> & Hin). apply elem_of_list_filter in Hin as [[Hk1 Hk2] Hin]. apply elem_of_map_to_list in Hin. cbn in *. split; [done|]. split; [by exists b|done].
    + intros (Hne & [b Hb] & Hf). exists (p, b). split; [done|]. apply elem_of_list_filter. split; [by split|by apply elem_of_map_to_list].
  - intros r Hr. destruct (record_at _ _ _ _ _ _ Ho Hc H Hr) as (b & f & H1 & H2 & H3 & H4). rewrite Hcm in *.
    split; [apply (record_filename commit (br_filename r, b) r); by exists f|].
    exists f. split; [done|]. apply record_of_facts in H4 as [Hst Hf]. split; [done|].
    destruct Hf as [(Hr1 & Hr2 & Hr3)|(Hr1 & Hr2)].
    + split; [by split|done].
    + split; [|done]. split; [|done]. intros Hs. destruct Hr2 as [[_ Hv]|(_ & [(Hg & _)|(Hg & _)] & _)].
      * apply violated_first_skip in Hv as (_ & Hv & _). done.
      * rewrite Hg in Hs. discriminate Hs.
      * rewrite Hg in Hs. discriminate Hs.
Qed.

Lemma record_rel_fun commit pb r r' : record_rel zt cl count meta commit pb r -> record_rel zt cl count meta commit pb r' -> r = r'.
Proof. intros (f & H1 & H2) (f' & H3 & H4). congruence. Qed.

(** Success does not depend on order or cache. *)
Lemma steps_succeed commit l cache res :
  cache_ok cl cache -> (forall pb, pb ∈ l -> kept commit pb -> exists r, record_rel zt cl count meta commit pb r) ->
  exists y, ofold (code_info_step zt cl count meta commit) (cache, res) l = Ret y.
Proof.
  revert cache res. induction l as [|[p b] l IH]; intros cache res Hc Hall; [by eexists|].
  cbn [ofold]. assert (exists c1 res1, code_info_step zt cl count meta commit (cache, res) (p, b) = Ret (c1, res1)) as (c1 & res1 & E).
  { pose proof (Hall (p, b) (elem_of_list_here _ _)) as Hpb. unfold kept, record_rel in Hpb. cbn [fst snd] in Hpb.
    unfold code_info_step, beq. case_bool_decide as Hp; [by eexists _, _|]. destruct (mc_files commit !! p) as [f|]; [|by eexists _, _].
    destruct Hpb as (r & f' & [= <-] & Hr); [split; [done|by eexists]|]. unfold record_of in Hr.
    case_decide; [by eexists _, _|]. pose proof (get_info_cached cl cache p (file_content b) (file_lines b) Hc) as Hg.
    destruct (get_info cl cache p (file_content b) (file_lines b)) as [[i1 c1]|e|m]; [|rewrite Hg in Hr; done|rewrite Hg in Hr; done].
    cbn [obind]. case_bool_decide; by eexists _, _. }
  rewrite E. cbn [obind]. apply step_ok in E as [Hc1 _]; [|done]. apply IH; [done|]. intros pb Hpb. apply Hall. by right.
Qed.

Lemma order_irrelevant order1 order2 cache1 cache2 x :
  any_perm order1 -> any_perm order2 -> used_cache cl cache1 -> used_cache cl cache2 ->
  (forall c1 rs1, records order1 cache1 x = Ret (c1, rs1) -> exists c2 rs2, records order2 cache2 x = Ret (c2, rs2) /\ rs1 ≡ₚ rs2).
Proof.
  intros Ho1 Ho2 Hc1 Hc2 c1 rs1 H1. pose proof (records_inv _ _ _ _ _ Ho1 Hc1 H1) as (pbs1 & Hp1 & HF1).
  set (commit := meta_of zt meta (r_commit x)) in *.
  assert (exists c2 rs2, records order2 cache2 x = Ret (c2, rs2)) as (c2 & rs2 & H2).
  { unfold code_info_files in H1 |- *. destruct (forallb _ _); [|done].
    destruct (steps_succeed commit (order2 (map_to_list (r_files x))) cache2 []) as [[c2 rs2] H]; [by apply used_ok| |by exists c2, rs2].
    intros pb Hin Hk. rewrite (Ho2 _) in Hin. assert (Hin1 : pb ∈ pbs1) by (rewrite Hp1; by apply elem_of_list_filter).
    apply elem_of_list_lookup in Hin1 as [i Hi]. destruct (Forall2_lookup_l _ _ _ _ _ HF1 Hi) as (r & _ & Hr). by exists r. }
  exists c2, rs2. split; [done|]. pose proof (records_inv _ _ _ _ _ Ho2 Hc2 H2) as (pbs2 & Hp2 & HF2). fold commit in Hp2, HF2.
  assert (Hp : pbs1 ≡ₚ pbs2) by (rewrite Hp1, Hp2; done). clear -Hp HF1 HF2.
  revert rs1 rs2 HF1 HF2. induction Hp as [|pb l1 l2 Hp IH|pb1 pb2 l|l1 l2 l3 Hp1 IH1 Hp2 IH2]; intros rs1 rs2 HF1 HF2.
  - by inversion HF1; inversion HF2.
  - apply Forall2_cons_inv_l in HF1 as (r1 & t1 & A1 & B1 & ->). apply Forall2_cons_inv_l in HF2 as (r2 & t2 & A2 & B2 & ->).
    rewrite (record_rel_fun _ _ _ _ A1 A2). constructor. by apply IH.
  - apply Forall2_cons_inv_l in HF1 as (r1 & t1 & A1 & B1 & ->). apply Forall2_cons_inv_l in B1 as (r2 & t2 & A2 & B2 & ->).
    apply Forall2_cons_inv_l in HF2 as (r3 & t3 & A3 & B3 & ->). apply Forall2_cons_inv_l in B3 as (r4 & t4 & A4 & B4 & ->).
    rewrite (record_rel_fun _ _ _ _ A1 A4), (record_rel_fun _ _ _ _ A2 A3).
    assert (t2 = t4) as ->; [|constructor].
    clear -B2 B4. revert t4 B4. induction B2 as [|? ? ? ? H _ IH]; intros t4 B4; [by inversion B4|].
    apply Forall2_cons_inv_l in B4 as (r & t & A & B & ->). f_equal; [by eapply record_rel_fun|by apply IH].
  - assert (exists rs, Forall2 (record_rel zt cl count meta commit) l2 rs) as [rs HF].
    { assert (Hall : forall pb, pb ∈ l2 -> exists r, record_rel zt cl count meta commit pb r).
      { intros pb Hin. rewrite <- Hp1 in Hin. apply elem_of_list_lookup in Hin as [i Hi]. destruct (Forall2_lookup_l _ _ _ _ _ HF1 Hi) as (r & _ & Hr). by exists r. }
      clear -Hall. induction l2 as [|pb l IH]; [exists []; constructor|]. destruct (Hall pb (elem_of_list_here _ _)) as [r Hr].
      destruct IH as [rs HF]; [intros q Hq; apply Hall; by right|]. exists (r :: rs). by constructor. }
    rewrite (IH1 rs1 rs HF1 HF). by apply IH2.
Qed.

Lemma records_succeed order cache x commit :
  any_perm order -> used_cache cl cache -> detector_works cl -> meta !! r_commit x = Some commit ->
  (forall p f, mc_files commit !! p = Some f -> cf_renamed f = true -> is_Some (r_files x !! cf_renamed_to f)) ->
  exists cache' rs, records order cache x = Ret (cache', rs).
Proof.
  intros Ho Hc Hd Hm Hren. unfold code_info_files. replace (meta_of zt meta (r_commit x)) with commit by (unfold meta_of; by rewrite Hm).
  replace (forallb _ _) with true.
  - destruct (steps_total zt cl count meta commit (order (map_to_list (r_files x))) cache []) as [[c rs] H]; [by apply used_ok|exact Hd|by exists c, rs].
  - symmetry. apply forallb_forall. intros [p f] Hin. apply elem_of_list_In, elem_of_map_to_list in Hin. cbn [snd].
    destruct (cf_renamed f) eqn:E; [|done]. cbn [negb orb]. apply bool_decide_eq_true_2. by eapply Hren.
Qed.

Lemma lines_mirror_all order cache x cache' rs r :
  any_perm order -> used_cache cl cache -> records order cache x = Ret (cache', rs) -> r ∈ rs ->
  br_skipped r = [] \/ br_skipped r = B "file was a generated file" ->
  exists b, r_files x !! br_filename r = Some b /\
    length (br_lines r) = length (b_lines b) /\
    br_size r = Z.of_nat (length (text_of b)) /\ br_totals r = (count (br_filename r) (cl_language cl (br_filename r) (text_of b)) (text_of b)).2 /\
    forall i l bl, b_lines b !! i = Some l -> br_lines r !! i = Some bl ->
      bl_sha bl = l_commit l /\ flags_right (calls_for cl count (br_filename r) b) (S i) bl /\
      bl_name bl = mc_author_name (meta_of zt meta (l_commit l)) /\ bl_email bl = mc_author_email (meta_of zt meta (l_commit l)) /\ bl_date bl = mc_date (meta_of zt meta (l_commit l)).
Proof.
  intros Ho Hc H Hr Hs. destruct (record_at _ _ _ _ _ _ Ho Hc H Hr) as (b & f & H1 & H2 & H3 & H4).
  exists b. split; [done|]. apply record_of_facts in H4 as [_ Hf]. set (calls := calls_for cl count (br_filename r) b) in *.
  destruct Hf as [(_ & _ & Hf)|(_ & [[_ Hv]|(_ & _ & Hsz & Htot & Hl)])].
  - exfalso. rewrite Hf in Hs. destruct Hs as [Hs|Hs]; discriminate Hs.
  - exfalso. apply violated_first_skip in Hv as (?&?&?&_). destruct Hs as [Hs|Hs]; done.
  - assert (Hlen : length (process_calls (stats_lines zt meta b) calls).1 = length (b_lines b)).
    { unfold process_calls. rewrite calls_length. unfold stats_lines. by rewrite map_length. }
    split; [rewrite Hl, map_length; exact Hlen|]. split; [done|]. split; [done|].
    intros i l bl Hi Hbl.
    set (l0 := SLine (BLine (mc_author_name (meta_of zt meta (l_commit l))) (mc_author_email (meta_of zt meta (l_commit l))) (mc_date (meta_of zt meta (l_commit l))) false false false (l_commit l)) (Some (l_data l))).
    assert (Hl0 : stats_lines zt meta b !! i = Some l0).
    { unfold stats_lines. by rewrite lookup_map, Hi. }
    destruct (calls_line calls _ false i l0 Hl0) as (l1 & Hl1 & (A1&A2&A3&A4&A5&A6&A7)).
    rewrite Hl in Hbl. unfold process_calls in Hbl. rewrite lookup_map, Hl1 in Hbl.
    cbn in Hbl. injection Hbl as <-. split; [exact A4|]. split.
    + unfold flags_right, reported. cbn [l0 sl_line bl_comment bl_code bl_blank] in A5, A6, A7.
      rewrite A5, A6, A7. intuition done.
    + cbn [l0 sl_line bl_name bl_email bl_date] in A1, A2, A3. done.
Qed.
Lemma lines_mirror_blame order cache x cache' rs r :
  any_perm order -> used_cache cl cache -> records order cache x = Ret (cache', rs) -> r ∈ rs ->
  br_skipped r = [] \/ br_skipped r = B "file was a generated file" ->
  exists b, r_files x !! br_filename r = Some b /\
    length (br_lines r) = length (b_lines b) /\
    br_size r = Z.of_nat (length (text_of b)) /\ br_totals r = (count (br_filename r) (cl_language cl (br_filename r) (text_of b)) (text_of b)).2 /\
    forall i l bl, b_lines b !! i = Some l -> br_lines r !! i = Some bl ->
      bl_sha bl = l_commit l /\ flags_right (calls_for cl count (br_filename r) b) (S i) bl /\
      forall c, meta !! l_commit l = Some c -> bl_name bl = mc_author_name c /\ bl_email bl = mc_author_email c /\ bl_date bl = mc_date c.
Proof.
  intros Ho Hc H Hr Hs. destruct (lines_mirror_all _ _ _ _ _ _ Ho Hc H Hr Hs) as (b & H1 & H2 & H3 & H4 & H5). exists b. split; [done|]. split; [done|]. split; [done|]. split; [done|].
  intros i l bl Hi Hbl. destruct (H5 i l bl Hi Hbl) as (A & B & C & D & E). split; [done|]. split; [done|]. intros c Hm. unfold meta_of in *. by rewrite Hm in C, D, E.
Qed.

(** A record without lines has no counts. *)
Lemma skipped_counts order cache x cache' rs r :
  any_perm order -> used_cache cl cache -> records order cache x = Ret (cache', rs) -> r ∈ rs ->
  br_skipped r <> [] -> br_skipped r <> B "file was a generated file" -> br_lines r = [] /\ br_size r = 0%Z /\ br_totals r = Totals 0 0 0 0 0.
Proof.
  intros Ho Hc H Hr H1 H2. destruct (record_at _ _ _ _ _ _ Ho Hc H Hr) as (b & f & _ & _ & _ & E). unfold record_of in E.
  case_decide; [injection E as <-; done|]. destruct (pure_info _ _ _ _) as [i| |]; cbn [obind] in E; [|done|done]. injection E as Er.
  case_bool_decide as Es; [by rewrite <- Er|]. exfalso. rewrite <- Er in H1, H2. unfold code_info_file in H1, H2. cbn [br_language] in H1, H2.
  destruct (count _ _ _) as [calls tot]. destruct (process_calls _ _) as [ls gen]. cbn [br_skipped] in H1, H2. destruct gen; [by apply H2|by apply H1].
Qed.

Lemma authors_partial order cache x cache' rs r :
  any_perm order -> used_cache cl cache -> records order cache x = Ret (cache', rs) -> r ∈ rs ->
  br_skipped r = [] ->
  (forall p b l, r_files x !! p = Some b -> l ∈ b_lines b -> is_Some (meta !! l_commit l)) ->
  exists b, r_files x !! br_filename r = Some b /\ Forall2 (line_of (fun c => meta !! c)) (b_lines b) (br_lines r).
Proof.
  intros Ho Hc H Hr Hs Hall. destruct (lines_mirror_blame _ _ _ _ _ _ Ho Hc H Hr (or_introl Hs)) as (b & Hb & Hlen & _ & _ & Hl).
  exists b. split; [done|]. apply Forall2_same_length_lookup. split; [done|]. intros i l bl H1 H2.
  destruct (Hl i l bl H1 H2) as (E & _ & Hm). split; [done|].
  destruct (Hall _ _ l Hb) as [c Hcm]; [by eapply elem_of_list_lookup_2|]. exists c. split; [done|]. by apply Hm.
Qed.

Lemma unknown_author order cache x cache' rs r b i l bl :
  any_perm order -> used_cache cl cache -> records order cache x = Ret (cache', rs) -> r ∈ rs -> br_skipped r = [] ->
  r_files x !! br_filename r = Some b -> b_lines b !! i = Some l -> br_lines r !! i = Some bl -> meta !! l_commit l = None ->
  bl_name bl = [] /\ bl_email bl = [] /\ bl_date bl = zt.
Proof.
  intros Ho Hc H Hr Hs Hb Hi Hbl Hm. destruct (record_at _ _ _ _ _ _ Ho Hc H Hr) as (b' & f & H1 & H2 & H3 & H4).
  rewrite Hb in H1. injection H1 as <-. apply record_of_facts in H4 as [_ Hf]. set (calls := calls_for cl count (br_filename r) b) in *.
  destruct Hf as [(_ & _ & Hf)|(_ & [[_ Hv]|(_ & _ & Hsz & Htot & Hl)])].
  - exfalso. rewrite Hf in Hs. discriminate Hs.
  - exfalso. by apply violated_first_skip in Hv as (?&?&?&_).
  - set (l0 := SLine (BLine (mc_author_name (meta_of zt meta (l_commit l))) (mc_author_email (meta_of zt meta (l_commit l))) (mc_date (meta_of zt meta (l_commit l))) false false false (l_commit l)) (Some (l_data l))).
    assert (Hl0 : stats_lines zt meta b !! i = Some l0).
    { unfold stats_lines. by rewrite lookup_map, Hi. }
    destruct (calls_line calls _ false i l0 Hl0) as (l1 & Hl1 & (A1&A2&A3&A4&A5&A6&A7)).
    rewrite Hl in Hbl. unfold process_calls in Hbl. rewrite lookup_map, Hl1 in Hbl.
    cbn in Hbl. injection Hbl as <-. cbn [l0 sl_line bl_name bl_email bl_date] in A1, A2, A3. unfold meta_of in A1, A2, A3. rewrite Hm in A1, A2, A3. done.
Qed.

Lemma record_limits order cache x cache' rs r b :
  any_perm order -> used_cache cl cache -> records order cache x = Ret (cache', rs) -> r ∈ rs ->
  r_files x !! br_filename r = Some b -> br_status r <> Removed ->
  (none_violated cl (br_filename r) (text_of b) (map l_data (b_lines b)) <-> br_skipped r = [] \/ br_skipped r = B "file was a generated file") /\
  (forall s, first_violated cl (br_filename r) (text_of b) (map l_data (b_lines b)) s -> br_skipped r = s /\ br_lines r = []).
Proof.
  intros Ho Hc H Hr Hb Hst. destruct (record_at _ _ _ _ _ _ Ho Hc H Hr) as (b' & f & H1 & H2 & H3 & H4).
  rewrite Hb in H1. injection H1 as <-. apply record_of_facts in H4 as [Hst' Hf]. rewrite Hst' in Hst.
  destruct Hf as [(Hx & _ & _)|(_ & [[Hl Hv]|(Hn & Hg & _)])]; [done| |].
  - pose proof (violated_first_skip _ _ _ Hv) as (?&?&?&?). split.
    + split; [done|]. intros [Hs|Hs]; done.
    + intros s Hs. split; [|done]. by eapply first_violated_fun.
  - split.
    + split; [|done]. intros _. destruct Hg as [(Hg & _)|(Hg & _)]; [by right|by left].
    + intros s (k & Hs & _). by apply Hn in Hs.
Qed.

Lemma generated_records order cache x cache' rs r b :
  any_perm order -> used_cache cl cache -> records order cache x = Ret (cache', rs) -> r ∈ rs ->
  r_files x !! br_filename r = Some b ->
  (br_skipped r = B "file was a generated file" <->
     br_status r <> Removed /\ none_violated cl (br_filename r) (text_of b) (map l_data (b_lines b)) /\
     says_generated (calls_for cl count (br_filename r) b) b) /\
  (br_skipped r = B "file was a generated file" -> br_language r = []) /\
  (br_skipped r = [] -> br_language r = cl_language cl (br_filename r) (text_of b) /\ br_language r <> []).
Proof.
  intros Ho Hc H Hr Hb. destruct (record_at _ _ _ _ _ _ Ho Hc H Hr) as (b' & f & H1 & H2 & H3 & H4).
  rewrite Hb in H1. injection H1 as <-. apply record_of_facts in H4 as [Hst Hf]. rewrite Hst.
  destruct Hf as [(Hx & _ & Hs)|(Hx & [[Hl Hv]|(Hn & Hg & _)])].
  - rewrite Hs. split; [split; [intros Hy; discriminate Hy|intros (? & _); done]|]. split; intros Hy; discriminate Hy.
  - pose proof (violated_first_skip _ _ _ Hv) as (?&?&?&?). split; [split; [done|]|split; done]. intros (_ & ? & _). done.
  - destruct Hg as [(Hg & Hlang & Hsay)|(Hg & Hlang & Hne & Hsay)]; rewrite Hg, Hlang.
    + split; [by split|]. split; [done|]. intros Hy; discriminate Hy.
    + split; [split; [intros Hy; discriminate Hy|intros (_ & _ & ?); done]|]. split; [intros Hy; discriminate Hy|done].
Qed.
End More.
