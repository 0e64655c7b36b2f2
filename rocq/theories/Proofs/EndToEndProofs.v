(** * Records of a full run: proofs for C60 and C49 *)
From Verif.Model Require Import Base GoStrings IncBlame LogParser ParentsGraph Process CommitMeta FileInfo CodeInfo.
From Verif.Spec Require Import Text UnifiedDiff Attribution GitLog CommitGraph History Processing Records MetaLog EndToEnd.
From Verif.Proofs Require Import TextLemmas RecordProofs RecordMore BlameOf ProcessLoop ProcessTop MetaNames MetaParse.
From Verif.Props Require Import MetaProps ProcessProps RecordProps.
From Coq Require Import Lia.

(** ** Histories *)

(** A run that starts from nothing lists all ancestors. *)
Lemma parents_first_closed H known cs c p : parents_first H known cs -> c ∈ cs -> p ∈ hparents H c -> p ∈ known \/ p ∈ cs.
Proof.
  revert known. induction cs as [|x cs IH]; intros known; [intros _ Hc; by apply elem_of_nil in Hc|].
  intros (_ & H2 & H3) [->|Hc]%elem_of_cons Hp.
  - left. by apply H2.
  - destruct (IH _ H3 Hc Hp) as [[->|Hk]%elem_of_cons|Hk]; [right; left|by left|right; by right].
Qed.
Lemma ancestors_listed H cs c d : parents_first H [] cs -> c ∈ cs -> reaches (hi_parents H) c d -> d ∈ cs.
Proof.
  intros Ho Hc Hr. induction Hr as [|x y z Hxy _ IH]; [done|]. apply IH.
  destruct (parents_first_closed H [] cs x y Ho Hc) as [Hk|Hk]; [|by apply elem_of_nil in Hk|done].
  exact Hxy.
Qed.

(** ** Changes *)

Lemma patch_path_ne k t t' p : patch_between k t t' p -> patch_path p <> [].
Proof.
  intros ((Hk & _) & _). unfold patch_path. destruct (fp_kind p) as [f m|f m|f m|f g s m]; cbn in *.
  - destruct Hk as [[Hk _] _]. exact Hk.
  - destruct Hk as [[Hk _] _]. exact Hk.
  - destruct Hk as [[Hk _] _]. exact Hk.
  - destruct Hk as (_ & [Hk _] & _). exact Hk.
Qed.
Lemma touched_path k t t' ps f : Forall (patch_between k t t') ps -> touched ps f <-> exists p, p ∈ ps /\ patch_path p = f.
Proof.
  intros HF. rewrite Forall_forall in HF. unfold touched, writes, deletes. split.
  - intros (p & Hp & Hx). exists p. split; [done|]. unfold patch_path. destruct Hx as [[Hne Hn]|Hx].
    + destruct (fp_kind p) as [g m|g m|g m|g h s m]; cbn in *; congruence.
    + by destruct (fp_kind p).
  - intros (p & Hp & <-). exists p. split; [done|]. pose proof (patch_path_ne _ _ _ _ (HF p Hp)) as Hne.
    unfold patch_path in *. destruct (fp_kind p) as [g m|g m|g m|g h s m]; cbn in *; [left|left|right|left]; done.
Qed.

Lemma touched_differs k t t' ps f : Forall (patch_between k t t') ps -> touched ps f -> t !! f <> t' !! f.
Proof.
  intros HF (p & Hp & Hx). rewrite Forall_forall in HF. destruct (HF p Hp) as (_ & _ & Hb).
  assert (Hre : retyped t t' f -> t !! f <> t' !! f).
  { intros (e & e' & H1 & H2 & H3). rewrite H1, H2. intros [= ->]. done. }
  unfold writes, deletes in Hx. destruct (fp_kind p) as [g m|g m|g m|g h s m]; cbn in *.
  - destruct Hx as [[_ <-]|[]]. destruct Hb as (e & e' & H1 & H2 & H3 & _). rewrite H1, H2. congruence.
  - destruct Hx as [[_ <-]|[]]. destruct Hb as (e' & H1 & [H2|H2] & _); [rewrite H1, H2; done|by apply Hre].
  - destruct Hx as [[? Hx]| <-]; [congruence|]. destruct Hb as (e & H1 & [H2|H2] & _); [rewrite H1, H2; done|by apply Hre].
  - destruct Hx as [[_ <-]|[]]. destruct Hb as (e & e' & _ & _ & H1 & H2 & _). rewrite H1, H2. done.
Qed.

Lemma writes_in_tree k t t' ps p f : Forall (patch_between k t t') ps -> p ∈ ps -> writes p f -> is_Some (t' !! f).
Proof.
  intros HF Hp [Hne Hn]. rewrite Forall_forall in HF. destruct (HF p Hp) as (_ & _ & Hb).
  destruct (fp_kind p) as [g m|g m|g m|g h s m]; cbn in *; [| |congruence|]; subst.
  - destruct Hb as (e & e' & _ & H1 & _). by exists e'.
  - destruct Hb as (e' & H1 & _). by exists e'.
  - destruct Hb as (e & e' & _ & _ & _ & H1 & _). by exists e'.
Qed.

(** The patches of a regular commit describe the change from its parent. *)
Lemma patches_between k H c : valid_history k H -> is_Some (hi_parents H !! c) -> length (hparents H c) <= 1 ->
  exists t, Forall (patch_between k t (hi_tree H c)) (patches_of H c).
Proof.
  intros [_ HV] Hc Hl. destruct (HV c Hc) as (_ & _ & _ & _ & H0 & H1). unfold patches_of.
  destruct (hparents H c) as [|p [|q ps]] eqn:E.
  - exists ∅. by apply H0.
  - exists (hi_tree H p). apply H1. left.
  - cbn in Hl. lia.
Qed.

(** ** Metadata *)

Section Meta.
Context {T : Type}.

Definition files_of (m : meta_entry T) : gmap bytes cfile := list_to_map (body_files (me_body m)).

Lemma change_keys (xs : list (raw_info * change * counts)) ps f :
  NoDup (map fst (concat (map change_files xs))) -> Forall (fun x => shown_as ps x.1.2) xs ->
  (exists x, x ∈ xs /\ change_path x.1.2 = f) ->
  exists cf, (list_to_map (concat (map change_files xs)) : gmap bytes cfile) !! f = Some cf /\ status_shown ps f (cf_status cf).
Proof.
  intros Hnd HF (x & Hx & Hp). rewrite Forall_forall in HF. specialize (HF x Hx).
  destruct x as [[r c] n]. cbn [fst snd] in *.
  assert (Hin : forall cf, (f, cf) ∈ change_files (r, c, n) -> (list_to_map (concat (map change_files xs)) : gmap bytes cfile) !! f = Some cf).
  { intros cf H. apply elem_of_list_to_map_1; [exact Hnd|]. apply elem_of_list_In, in_concat. exists (change_files (r, c, n)).
    split; [by apply in_map, elem_of_list_In|by apply elem_of_list_In]. }
  destruct c as [l g|s g h sh|s g h sh]; cbn [change_path] in Hp; subst.
  - eexists. split; [apply Hin; left|]. cbn [cf_status]. cbn [shown_as] in HF.
    destruct HF as [(-> & Hm)|[(-> & Hm & Hn)|[(-> & Hm & Hn)|(-> & Hm & Hn)]]]; cbn.
    + by apply ss_modified. + by apply ss_created. + by apply ss_deleted. + by apply ss_retyped.
  - eexists. split; [apply Hin; right; left|]. cbn [cf_status]. cbn [shown_as] in HF. by eapply ss_moved.
  - done.
Qed.

(** A renamed file's new name. *)
Lemma change_renamed (xs : list (raw_info * change * counts)) ps f cf :
  Forall (fun x => shown_as ps x.1.2) xs -> (list_to_map (concat (map change_files xs)) : gmap bytes cfile) !! f = Some cf ->
  cf_renamed cf = true -> exists p, p ∈ ps /\ patch_path p = cf_renamed_to cf.
Proof.
  intros HF Hl Hr. apply elem_of_list_to_map_2, elem_of_list_In, in_concat in Hl as (ys & Hys & Hin).
  apply in_map_iff in Hys as ([[r c] n] & <- & Hx). apply elem_of_list_In in Hx, Hin. rewrite Forall_forall in HF. specialize (HF _ Hx).
  cbn [fst snd] in HF. destruct c as [l g|s g h sh|s g h sh]; cbn [change_files] in Hin.
  - apply elem_of_list_singleton in Hin. injection Hin as -> ->. done.
  - cbn [shown_as] in HF. destruct HF as (p & s' & m & Hp & Hk). exists p. split; [done|]. unfold patch_path. rewrite Hk. cbn.
    apply elem_of_cons in Hin as [Hin|Hin]; [injection Hin as -> ->; done|]. apply elem_of_list_singleton in Hin. injection Hin as -> ->. done.
  - done.
Qed.

Lemma change_key_inv (xs : list (raw_info * change * counts)) ps f cf :
  Forall (fun x => shown_as ps x.1.2) xs -> (list_to_map (concat (map change_files xs)) : gmap bytes cfile) !! f = Some cf ->
  (exists x, x ∈ xs /\ change_path x.1.2 = f) \/ exists g, moved ps f g.
Proof.
  intros HF Hl. apply elem_of_list_to_map_2, elem_of_list_In, in_concat in Hl as (ys & Hys & Hin).
  apply in_map_iff in Hys as ([[r c] n] & <- & Hx). apply elem_of_list_In in Hx, Hin. rewrite Forall_forall in HF. specialize (HF _ Hx).
  cbn [fst snd] in HF. destruct c as [l g|s g h sh|s g h sh]; cbn [change_files] in Hin.
  - apply elem_of_list_singleton in Hin. injection Hin as -> ->. left. by exists (r, Plain l g, n).
  - apply elem_of_cons in Hin as [Hin|Hin].
    + injection Hin as -> ->. right. by exists h.
    + apply elem_of_list_singleton in Hin. injection Hin as -> ->. left. by exists (r, Renamed s g h sh, n).
  - done.
Qed.

Lemma status_removed k t t' ps f : Forall (patch_between k t t') ps -> touched ps f -> (forall p, p ∈ ps -> ~ writes p f) ->
  forall st, status_shown ps f st -> st = Removed.
Proof.
  intros HF Ht Hn st Hs.
  assert (Hw : forall p, p ∈ ps -> name_after (fp_kind p) = f -> False).
  { intros p Hp E. apply (Hn p Hp). split; [|done]. rewrite Forall_forall in HF. pose proof (patch_path_ne _ _ _ _ (HF p Hp)) as Hne.
    destruct Ht as (q & Hq & [[Hne' _]|Hd]); [done|]. pose proof (patch_path_ne _ _ _ _ (HF q Hq)) as Hneq.
    unfold deletes, patch_path in *. destruct (fp_kind q); try done. by subst. }
  destruct Hs as [(p & m & Hp & E)|(p & m & Hp & E) _|g (p & s & m & Hp & E)|_ _|(p & m & Hp & E) _]; try done;
    exfalso; apply (Hw p Hp); by rewrite E.
Qed.
End Meta.

(** ** Records of a run *)

Section Run.
Context {T L : Type} (zt : T) (parse_date : bytes -> option T) (cl : classifiers L).
Context (count : bytes -> bytes -> bytes -> list (Z * line_type) * totals).
Context (k : nat) (H : history) (slow : bytes -> bytes -> outcome blame) (e : env) (cs : list bytes).
Context (es : list (meta_entry T)) (ls : list bytes).
Context (before : list bytes) (r0 : repo) (HR : run_ready H slow k e before r0 cs).
Context (HW : Forall (MetaLog.wf_meta parse_date) es) (HL : meta_log es ls) (HS : MetaProps.short_lines ls) (HM : metadata_for H cs es).
Notation meta := (run_map zt parse_date (unlines ls)).1.

Lemma shas_nodup : NoDup (map me_sha es).
Proof.
  destruct HM as [Hp _]. rewrite Hp. destruct HR as [_ _ _ _ _ Ho _ _]. clear -Ho. revert Ho. generalize before.
  induction cs as [|c l IH]; intros known Ho; [constructor|]. destruct Ho as (H1 & _ & H2). constructor; [done|by eapply IH].
Qed.

Lemma meta_at i m : es !! i = Some m -> meta !! me_sha m = Some (meta_commit (S i) m).
Proof. intros Hi. eapply C45_by_id_partial; [done|exact HL|exact HS|exact shas_nodup|exact Hi]. Qed.

Lemma meta_some c : c ∈ cs -> exists i m, es !! i = Some m /\ me_sha m = c.
Proof.
  intros Hc. destruct HM as [Hp _]. rewrite <- Hp in Hc. apply elem_of_list_fmap in Hc as (m & -> & Hm).
  apply elem_of_list_lookup in Hm as [i Hi]. by exists i, m.
Qed.

(** What is required of the lines. *)
Context (line_ok : line -> bline T -> Prop).
Context (Hline : forall c f b l bl, c ∈ cs -> is_Some (hi_tree H c !! f) -> blame_of H slow c f b -> l ∈ b_lines b -> bl_sha bl = l_commit l ->
  bl_name bl = mc_author_name (meta_of zt meta (l_commit l)) -> bl_email bl = mc_author_email (meta_of zt meta (l_commit l)) -> bl_date bl = mc_date (meta_of zt meta (l_commit l)) ->
  line_ok l bl).
Lemma record_lines order cache x cache' rs r c b :
  any_perm order -> used_cache cl cache -> code_info_files zt cl count meta order cache x = Ret (cache', rs) -> r ∈ rs ->
  c ∈ cs -> is_Some (hi_tree H c !! br_filename r) -> r_files x !! br_filename r = Some b -> blame_of H slow c (br_filename r) b ->
  not_skipped r -> lines_right H slow line_ok c (br_filename r) r.
Proof.
  intros Hperm Hcache Hrs Hr Hc Ht Hb Hbl Hns. exists b. split; [done|].
  destruct (lines_mirror_all zt cl count meta _ _ _ _ _ _ Hperm Hcache Hrs Hr Hns) as (b' & Hb' & Hlen & _ & _ & Hl).
  rewrite Hb in Hb'. injection Hb' as <-. apply Forall2_same_length_lookup. split; [done|]. intros i l bl H1 H2.
  destruct (Hl i l bl H1 H2) as (E & _ & E1 & E2 & E3). eapply Hline; [exact Hc|exact Ht|exact Hbl|by eapply elem_of_list_lookup_2|exact E|exact E1|exact E2|exact E3].
Qed.

Lemma skipped_no_lines order cache x cache' rs r :
  any_perm order -> used_cache cl cache -> code_info_files zt cl count meta order cache x = Ret (cache', rs) -> r ∈ rs -> ~ not_skipped r -> br_lines r = [].
Proof.
  intros Hperm Hcache Hrs Hr Hn. destruct (record_at zt cl count meta _ _ _ _ _ _ Hperm Hcache Hrs Hr) as (b & f & H1 & H2 & H3 & H4).
  apply record_of_facts in H4 as [_ Hf]. destruct Hf as [(_ & E & _)|(_ & [[E _]|(_ & Hg & _)])]; [done|done|].
  exfalso. apply Hn. destruct Hg as [(Hg & _)|(Hg & _)]; [by right|by left].
Qed.

Lemma records_of_commit order cache c res :
  any_perm order -> used_cache cl cache -> detector_works cl -> c ∈ cs -> commit_right H slow c res ->
  exists cache' rs, code_info_files zt cl count meta order cache res = Ret (cache', rs) /\
    (length (hparents H c) <= 1 -> records_right H slow line_ok c rs) /\ (1 < length (hparents H c) -> merge_records_right H slow line_ok c rs).
Proof.
  intros Hperm Hcache Hdet Hc Hcr. destruct (meta_some c Hc) as (i & m & Hi & Hsha). pose proof (meta_at i m Hi) as Hma. rewrite Hsha in Hma.
  assert (Hgc : is_Some (hi_parents H !! c)) by (destruct HR; by apply rr_commits).
  assert (HV : valid_history k H) by (destruct HR; done).
  assert (Hwf : MetaLog.wf_meta parse_date m) by (rewrite Forall_forall in HW; apply HW; by eapply elem_of_list_lookup_2).
  assert (Hem : entry_matches H m) by (destruct HM as [_ HF]; rewrite Forall_forall in HF; apply HF; by eapply elem_of_list_lookup_2).
  destruct Hwf as (_ & _ & Hnd & _).
  assert (Hrc : r_commit res = c) by (unfold commit_right in Hcr; destruct (decide _); apply Hcr).
  assert (Hmr : meta !! r_commit res = Some (meta_commit (S i) m)) by (by rewrite Hrc).
  unfold entry_matches in Hem. rewrite Hsha in Hem. destruct (me_body m) as [xs|ss cm] eqn:Eb.
  - (* one parent or none *)
    destruct Hem as [Hlen [HF Hall]]. unfold commit_right in Hcr. rewrite decide_False in Hcr by lia.
    destruct Hcr as (_ & Hkeys & Hwr & Hdel). destruct (patches_between k H c HV Hgc Hlen) as [t Hps].
    assert (Hfiles : mc_files (meta_commit (S i) m) = list_to_map (concat (map change_files xs))) by (cbn; by rewrite Eb).
    destruct (records_succeed zt cl count meta order cache res _ Hperm Hcache Hdet Hmr) as (cache' & rs & Hrs).
    { intros p f. rewrite Hfiles. intros Hp Hren. destruct (change_renamed xs (patches_of H c) p f HF Hp Hren) as (q & Hq & E).
      apply Hkeys. apply (touched_path k t (hi_tree H c)); [done|]. by exists q. }
    exists cache', rs. split; [done|]. split; [intros _|intros ?; lia].
    destruct (C47_one_record_per_file zt cl count meta order cache res _ cache' rs Hperm Hcache Hmr Hrs) as (Hn & Hin & Hrec).
    rewrite Hfiles in Hin, Hrec.
    assert (Htk : forall f, touched (patches_of H c) f -> exists cf, (list_to_map (concat (map change_files xs)) : gmap bytes cfile) !! f = Some cf /\ status_shown (patches_of H c) f (cf_status cf)).
    { intros f Ht. apply change_keys; [exact Hnd|done|]. apply (touched_path k t (hi_tree H c)) in Ht as (p & Hp & <-); [|done]. by apply Hall. }
    split; [done|]. split.
    + intros f. rewrite Hin. split.
      * intros (_ & Hf & _). by apply Hkeys.
      * intros Ht. split; [|split].
        -- apply (touched_path k t (hi_tree H c)) in Ht as (p & Hp & <-); [|done]. rewrite Forall_forall in Hps. by eapply patch_path_ne, Hps.
        -- by apply Hkeys.
        -- destruct (Htk f Ht) as (cf & Hcf & _). by exists cf.
    + intros r Hr. destruct (Hrec r Hr) as (Ecm & f & Hf & Est & Hrem & _).
      assert (Hfn : br_filename r ∈ map br_filename rs) by (apply elem_of_list_In, in_map, elem_of_list_In; exact Hr).
      apply Hin in Hfn as (Hne & [b Hb] & _). assert (Ht : touched (patches_of H c) (br_filename r)) by (apply Hkeys; by exists b).
      destruct (Htk _ Ht) as (cf & Hcf & Hst). rewrite Hf in Hcf. injection Hcf as <-.
      split; [rewrite Ecm; exact Hsha|]. split; [by rewrite Est|]. split; [rewrite Est, Hrem; done|]. split.
      * intros Hns.
        assert (Hw : exists p, p ∈ patches_of H c /\ writes p (br_filename r)).
        { destruct (decide (Exists (fun p => br_filename r <> [] /\ name_after (fp_kind p) = br_filename r) (patches_of H c))) as [Hex|Hex].
          - apply Exists_exists in Hex as (p & Hp & Hx). by exists p.
          - exfalso. assert (cf_status f = Removed) as Hre.
            { eapply status_removed; [exact Hps|exact Ht| |exact Hst]. intros p Hp Hx. apply Hex, Exists_exists. by exists p. }
            apply Hrem in Hre. destruct Hns as [E|E]; rewrite Hre in E; discriminate E. }
        destruct Hw as (p & Hp & Hw). eapply record_lines; [exact Hperm|exact Hcache|exact Hrs|exact Hr|exact Hc|by eapply writes_in_tree|exact Hb| |exact Hns].
        apply Hwr; [done|by exists p].
      * by eapply skipped_no_lines.
  - (* merge *)
    destruct Hem as (p0 & p1 & ps & Hpar & Hss). unfold commit_right in Hcr. rewrite decide_True in Hcr by (rewrite Hpar; cbn; lia).
    destruct Hcr as (_ & Htree & Hgone).
    destruct (proj2 HV c Hgc) as (_ & _ & _ & _ & _ & Hdesc). destruct (Hdesc p0) as (Hps & Hcov & _); [rewrite Hpar; left|].
    assert (Hfiles : mc_files (meta_commit (S i) m) = list_to_map (body_files (MergeStats ss cm))) by (cbn [meta_commit mc_files]; by rewrite Eb).
    assert (Hk1 : forall f, is_Some (mc_files (meta_commit (S i) m) !! f) -> touched (hi_diff H c p0) f).
    { intros f [cf Hf]. rewrite Hfiles in Hf. apply elem_of_list_to_map_2 in Hf. cbn [body_files] in Hf. apply Hss.
      change (map ?f ?l) with (f <$> l) in Hf. apply elem_of_list_fmap in Hf as ([[q sh] n] & E & Hx). injection E as -> ->.
      apply elem_of_list_fmap. by exists (q, sh, n). }
    assert (Hk2 : forall f, touched (hi_diff H c p0) f -> is_Some (mc_files (meta_commit (S i) m) !! f)).
    { intros f Ht. apply Hss in Ht. apply elem_of_list_fmap in Ht as ([[q sh] n] & -> & Hx). cbn [fst].
      rewrite Hfiles. eexists. apply elem_of_list_to_map_1; [exact Hnd|]. cbn [body_files].
      apply elem_of_list_fmap. by exists (q, sh, n). }
    destruct (records_succeed zt cl count meta order cache res _ Hperm Hcache Hdet Hmr) as (cache' & rs & Hrs).
    { intros p f Hp Hren. rewrite Hfiles in Hp. apply elem_of_list_to_map_2 in Hp. cbn [body_files] in Hp.
      apply elem_of_list_fmap in Hp as ([[q sh] n] & E & Hx). injection E as -> ->. done. }
    exists cache', rs. split; [done|]. split; [intros Hlen; rewrite Hpar in Hlen; cbn in Hlen; lia|intros _].
    destruct (C47_one_record_per_file zt cl count meta order cache res _ cache' rs Hperm Hcache Hmr Hrs) as (Hn & Hin & Hrec).
    split; [done|]. split.
    + intros f Hf Hdiff. apply Hin.
      assert (Ht : touched (hi_diff H c p0) f).
      { destruct (Hcov f) as [Hw _]; [apply Hdiff; rewrite Hpar; left|]. destruct (Hw Hf) as (p & Hp & Hx). exists p. split; [done|by left]. }
      split; [|split].
      * apply (touched_path k (hi_tree H p0) (hi_tree H c)) in Ht as (p & Hp & <-); [|done]. rewrite Forall_forall in Hps. by eapply patch_path_ne, Hps.
      * destruct (Htree f Hf) as (_ & Hsome & _). by apply Hsome.
      * by apply Hk2.
    + intros r Hr. destruct (Hrec r Hr) as (Ecm & f & Hf & _). 
      assert (Hfn : br_filename r ∈ map br_filename rs) by (apply elem_of_list_In, in_map, elem_of_list_In; exact Hr).
      apply Hin in Hfn as (Hne & [b Hb] & Hmc). split; [rewrite Ecm; exact Hsha|]. split; [|split].
      * rewrite Hpar. intros p [= <-]. eapply touched_differs; [exact Hps|by apply Hk1].
      * intros Ht Hns. eapply record_lines; [exact Hperm|exact Hcache|exact Hrs|exact Hr|exact Hc|exact Ht|exact Hb| |exact Hns]. destruct (Htree _ Ht) as (Hbl & _). by apply Hbl.
      * intros Ht. destruct (Hgone _ Ht) as [_ Hbl]. specialize (Hbl b Hb).
        destruct (record_at zt cl count meta _ _ _ _ _ _ Hperm Hcache Hrs Hr) as (b' & f' & H1 & _ & _ & H4).
        assert (Some b = Some b') as E0 by (etransitivity; [symmetry; exact Hb|exact H1]). injection E0 as <-.
        apply record_of_facts in H4 as [_ Hfx]. destruct Hfx as [(_ & E & _)|(_ & [[E _]|(_ & _ & _ & _ & E)])]; [done|done|].
        rewrite Hbl in E. apply (f_equal length) in E. rewrite map_length in E. unfold process_calls in E. rewrite calls_length in E.
        cbn in E. by destruct (br_lines r).
Qed.
End Run.

(** ** Lines of a full run *)
Section Full.
Context {T : Type} (zt : T) (parse_date : bytes -> option T) (k : nat) (H : history) (slow : bytes -> bytes -> outcome blame) (e : env) (cs : list bytes).
Context (es : list (meta_entry T)) (ls : list bytes) (HR : run_ready H slow k e [] ∅ cs).
Context (HW : Forall (MetaLog.wf_meta parse_date) es) (HL : meta_log es ls) (HS : MetaProps.short_lines ls) (HM : metadata_for H cs es).
Notation meta := (run_map zt parse_date (unlines ls)).1.

(** Blame that follows from the history is about listed commits. *)
Lemma blame_listed c f b l : c ∈ cs -> is_Some (hi_tree H c !! f) -> blame_of H slow c f b -> l ∈ b_lines b -> l_commit l ∈ cs.
Proof.
  intros Hc [en He] Hb Hl. destruct HR as [HV Hk HSl HA Henv Ho Hcs Hbf]. destruct (Hcs c Hc) as [Hg _].
  destruct (C27_blame_is_the_file k H slow c f b en HV HSl Hg Hb He) as [_ Hreach].
  eapply ancestors_listed; [exact Ho|exact Hc|by apply Hreach].
Qed.
Lemma full_line c f b l (bl : bline T) : c ∈ cs -> is_Some (hi_tree H c !! f) -> blame_of H slow c f b -> l ∈ b_lines b -> bl_sha bl = l_commit l ->
  bl_name bl = mc_author_name (meta_of zt meta (l_commit l)) -> bl_email bl = mc_author_email (meta_of zt meta (l_commit l)) -> bl_date bl = mc_date (meta_of zt meta (l_commit l)) ->
  line_right es l bl.
Proof.
  intros Hc Ht Hb Hl E E1 E2 E3. split; [exact E|].
  destruct (meta_some H cs es HM (l_commit l)) as (j & m & Hj & Hsha); [by eapply blame_listed|].
  exists m. split; [by eapply elem_of_list_lookup_2|]. split; [done|]. pose proof (meta_at zt parse_date k H slow e cs es ls [] ∅ HR HW HL HS HM j m Hj) as Hma. rewrite Hsha in Hma.
  unfold meta_of in E1, E2, E3. rewrite Hma in E1, E2, E3. done.
Qed.
End Full.

(** ** Lines of any run *)
Section Since.
Context {T : Type} (zt : T) (parse_date : bytes -> option T) (k : nat) (H : history) (slow : bytes -> bytes -> outcome blame) (e : env) (cs : list bytes).
Context (es : list (meta_entry T)) (ls : list bytes) (before : list bytes) (r0 : repo) (HR : run_ready H slow k e before r0 cs).
Context (HW : Forall (MetaLog.wf_meta parse_date) es) (HL : meta_log es ls) (HS : MetaProps.short_lines ls) (HM : metadata_for H cs es).
Notation meta := (run_map zt parse_date (unlines ls)).1.
Lemma since_line l (bl : bline T) : bl_sha bl = l_commit l ->
  bl_name bl = mc_author_name (meta_of zt meta (l_commit l)) -> bl_email bl = mc_author_email (meta_of zt meta (l_commit l)) -> bl_date bl = mc_date (meta_of zt meta (l_commit l)) ->
  line_since zt es l bl.
Proof.
  intros E E1 E2 E3. destruct (decide (l_commit l ∈ map me_sha es)) as [Hin|Hn].
  - left. split; [exact E|]. apply elem_of_list_fmap in Hin as (m & Hsha & Hm). apply elem_of_list_lookup in Hm as [j Hj]. exists m. split; [by eapply elem_of_list_lookup_2|]. split; [done|].
    pose proof (meta_at zt parse_date k H slow e cs es ls before r0 HR HW HL HS HM j m Hj) as Hma. unfold meta_of in E1, E2, E3. rewrite Hsha, Hma in E1, E2, E3. done.
  - right. split; [exact E|]. split; [intros m Hm Hx; apply Hn, elem_of_list_fmap; by exists m|].
    unfold meta_of in E1, E2, E3. rewrite (C45_no_others_partial zt parse_date es ls _ HW HL HS Hn) in E1, E2, E3. done.
Qed.
End Since.
