(** * Property C60: what a full run reports, from the texts of the two logs to the channel *)
From Verif.Model Require Import Base GoStrings IncBlame LogParser ParentsGraph Process Msgp Checkpoint CheckpointFS CommitMeta FileInfo CodeInfo Net Pipeline.
From Verif.Spec Require Import Text UnifiedDiff Attribution GitLog CommitGraph History Processing Records MetaLog EndToEnd Delivery.
From Verif.Proofs Require Import TextLemmas ProcessExamples CheckpointExamples RecordProofs RecordMore EndToEndProofs EndToEndRun PipelineProofs PipelineMore MetaNames MetaParse.
From Verif.Props Require Import MetaProps ProcessProps RecordProps PipelineProps.
From Coq Require Import Lia.

(** C60: for every history, every order of its commits git may print, every metadata log for these commits, every order of maps and every
    schedule: the caller receives, commit by commit in the order of the log, exactly the right records; then the channel is closed and the
    call returns.

    Partial: histories as in C27 ([run_ready]: no merge changes the type of a file, no path starts with "@@@del@@@"), paths that git
    does not quote and that can be told apart from renames ([wf_meta]); lines shorter than the limits of the two scanners. *)
Theorem C60_full_run_partial {T L} (zt : T) parse_date (cl : classifiers L) count orders k H slow e cs es ls skip o disk write_err :
  run_ready H slow k e [] ∅ cs -> UnifiedDiff.short_lines (log_lines (git_log H cs)) ->
  Forall (MetaLog.wf_meta parse_date) es -> meta_log es ls -> MetaProps.short_lines ls -> metadata_for H cs es ->
  (forall n, any_perm (orders n)) -> detector_works cl -> po_from o = [] ->
  let act := act zt cl count (run_map zt parse_date (unlines ls)).1 orders ∅ skip e o disk (render_log (git_log H cs)) None None write_err in
  exists xs w, Forall2 (commit_records_right H slow (line_right es)) cs xs /\
    (exists n, forall m c, nsteps (step act) m code_call c -> m <= n) /\
    forall c, rtc (step act) code_call c ->
      ~ crashing act c /\ received c `prefix_of` concat xs /\ (c_res ∈ closed c -> received c = concat xs) /\
      (final act c -> all_ended c /\ received c = concat xs /\ c_res ∈ closed c /\
         returned c = Some (with_write write_err (Ret tt) w, w) /\
         match w with Some (_, v) => last cs = Some v | None => cs = [] end).
Proof.
  intros HR HG HW HL HS HM Hord Hdet Ho act0.
  destruct (run_delivers zt parse_date cl count orders k H slow e cs es ls [] ∅ HR HG HW HL HS HM Hord Hdet (line_right es) (full_line zt parse_date k H slow e cs es ls HR HW HL HS HM) skip o disk write_err)
    as (xs & w & H1 & Hw & H2 & H3); [unfold init_checkpoints; by rewrite decide_True|].
  exists xs, w. split; [exact H1|]. split; [exact H2|]. intros c Hc. destruct (H3 c Hc) as (A1 & A2 & A3 & A4). split; [exact A1|]. split; [exact A2|]. split; [exact A3|].
  intros Hf. destruct (A4 Hf) as (B1 & B2 & B3 & B4). split; [exact B1|]. split; [exact B2|]. split; [exact B3|]. split; [exact B4|]. destruct w as [[r v]|]; [by destruct Hw|exact Hw].
Qed.
Print Assumptions C60_full_run_partial.

(** The lines of these records: of a file with text (no file of the history is binary) there is one line for each of its lines,
    with a commit that the commit of the record descends from, and the author and date of that commit. *)
Theorem C60_text_lines {T L} k H slow (es : list (meta_entry T)) c (rs : list (bresult T L)) r en :
  valid_history k H -> slow_blame_right H slow -> (forall c f e, hi_tree H c !! f = Some e -> exists ls, en_content e = CText ls) ->
  is_Some (hi_parents H !! c) -> commit_records_right H slow (line_right es) c rs -> r ∈ rs -> not_skipped r -> hi_tree H c !! br_filename r = Some en ->
  length (br_lines r) = length (content_lines (en_content en)) /\
  Forall (fun bl => reaches (hi_parents H) c (bl_sha bl) /\
    exists m, m ∈ es /\ me_sha m = bl_sha bl /\ bl_name bl = me_author_name m /\ bl_email bl = me_author_email m /\ bl_date bl = me_time m) (br_lines r).
Proof.
  intros HV HS HT Hc HC Hr Hns He.
  assert (Hl : lines_right H slow (line_right es) c (br_filename r) r).
  { unfold commit_records_right in HC. destruct (decide _).
    - destruct HC as (_ & _ & HC). destruct (HC r Hr) as (_ & _ & H1 & _). apply H1; [by eexists|exact Hns].
    - destruct HC as (_ & _ & HC). destruct (HC r Hr) as (_ & _ & _ & H1 & _). by apply H1. }
  destruct Hl as (b & Hb & HF). destruct (C27_blame_is_the_file k H slow c _ b en HV HS Hc Hb He) as [Ht Hre].
  specialize (Ht (C27_text_is_never_binary k H slow c _ b HV HS HT Hc Hb)). split.
  - rewrite <- (Forall2_length _ _ _ HF), <- (Forall2_length _ _ _ Ht). unfold texts. by rewrite map_length.
  - clear Ht. induction HF as [|l bl bls ls Hx _ IH]; [constructor|]. constructor; [|apply IH; intros l' Hl'; apply Hre; by right].
    destruct Hx as (E & m & Hm & E1 & E2). split; [rewrite E; apply Hre; left|]. exists m. rewrite E. done.
Qed.
Print Assumptions C60_text_lines.

(** ** The metadata log of ex_hist *)

Definition ri : raw_info := RawInfo (B "100644") (B "100644") (B "1111111") (B "2222222").
Definition ee_entry (c : bytes) (parents : list bytes) (b : MetaLog.body) : meta_entry N :=
  MetaEntry c parents (B "c@x") (B "Carl") (c ++ B "@x") (B "Ann " ++ c) (B "2019-01-01T00:00:00Z") 20%N (B "subject of " ++ c) b.
Definition ee_entries : list (meta_entry N) :=
  [ee_entry e5 [d4] (Changes [(ri, Renamed (B "100") g_ h_ (B "g => h"), MetaLog.Text 0 0)]);
   ee_entry d4 [b2; c3] (MergeStats [(f_, f_, MetaLog.Text 1 0); (g_, g_, MetaLog.Text 1 0)] [(B "100644 100644 100644 1 2 3 MM", f_)]);
   ee_entry c3 [a1] (Changes [(ri, Plain "A" g_, MetaLog.Text 1 0)]);
   ee_entry b2 [a1] (Changes [(ri, Plain "M" f_, MetaLog.Text 1 0)]);
   ee_entry a1 [] (Changes [(ri, Plain "A" f_, MetaLog.Text 1 0)])].
Definition ee_lines : list bytes := concat (map (fun x => meta_lines x ++ [[]]) ee_entries).

Local Ltac ni := (apply not_in_const; reflexivity).
Local Ltac flds := (split; [ni|split; [ni|split; [ni|ni]]]).
Local Ltac wrd := (split; [discriminate|flds]).
Local Ltac txt := (split; [ni|apply ntc_not; ni]).
Local Ltac pth := (split; [discriminate|split; [ni|split; [ni|split; [apply ntc_not; ni|intros ?; discriminate]]]]).
Local Ltac noarrow := (intros (? & ? & E); match type of E with ?x = _ => assert (">"%char ∉ x) as Hn by ni; rewrite E in Hn; apply Hn, elem_of_app; right; right; right; left end).
Local Ltac hdrs := (split; [wrd|split; [repeat (apply Forall_cons_2; [wrd|]); apply Forall_nil_2|split; [txt|split; [txt|split; [txt|split; [txt|split; [wrd|split; [apply TrimProofs.bare_solid; repeat (apply Forall_cons; split; [reflexivity|]); by apply Forall_nil|txt]]]]]]]]).
Local Ltac nodup := (apply (bool_decide_unpack _); vm_compute; exact I).
Local Ltac infos := (split; [flds|split; [flds|split; [flds|]]]).
Local Ltac letter := (apply (bool_decide_unpack _); vm_compute; exact I).
Local Ltac plain := (apply Forall_cons_2; [infos; split; [split; reflexivity|]; split; [letter|]; split; [pth|]; split; [noarrow|]; left; by left|apply Forall_nil_2]).
Local Ltac rpath := (apply Forall_cons_2; [split; [discriminate|split; discriminate]|apply Forall_nil_2]).
Lemma ee_wf : Forall (MetaLog.wf_meta any_date) ee_entries.
Proof.
  apply Forall_cons_2; [|apply Forall_cons_2; [|apply Forall_cons_2; [|apply Forall_cons_2; [|apply Forall_cons_2; [|apply Forall_nil_2]]]]];
    (split; [hdrs|split; [reflexivity|split; [nodup|cbn [me_body ee_entry]]]]).
  - apply Forall_cons_2; [|apply Forall_nil_2]. infos. split; [split; reflexivity|]. split; [flds|]. split; [discriminate|]. split; [pth|]. split; [pth|].
    split; [by left|]. split; [|split; [ni|split; [ni|apply ntc_not; ni]]]. right. exists g_.
    split; [apply (shown_whole g_ h_)|]. split; [rpath|]. split; [rpath|]. split; (split; [ni|split; ni]).
  - split; [discriminate|]. split.
    + repeat (apply Forall_cons_2; [split; [left; split; [done|noarrow]|split; [ni|split; [ni|split; [apply ntc_not; ni|split; [discriminate|split; reflexivity]]]]]|]).
      apply Forall_nil_2.
    + apply Forall_cons_2; [|apply Forall_nil_2]. split; [ni|]. split; [ni|pth].
  - plain.
  - plain.
  - plain.
Qed.
Lemma ee_log : meta_log ee_entries ee_lines.
Proof. vm_compute. reflexivity. Qed.
Lemma ee_short : MetaProps.short_lines ee_lines.
Proof. apply (bool_decide_unpack _). vm_compute. exact I. Qed.
Lemma ee_matches : metadata_for ex_hist ex_commits ee_entries.
Proof.
  split; [change ex_commits with (rev (map me_sha ee_entries)); apply Permutation_rev|].
  assert (Hone : forall ps c p x, ps = [p] -> shown_as ps x.1.2 -> change_path x.1.2 = patch_path p -> c <= 1 -> c <= 1 /\ same_changes ps [x]).
  { intros ps c p x -> Hs Hp Hc. split; [exact Hc|]. split; [by apply Forall_singleton|]. intros q Hq. apply elem_of_list_singleton in Hq as ->.
    exists x. split; [by apply elem_of_list_singleton|exact Hp]. }
  apply Forall_cons_2; [|apply Forall_cons_2; [|apply Forall_cons_2; [|apply Forall_cons_2; [|apply Forall_cons_2; [|apply Forall_nil_2]]]]].
  - apply (Hone _ _ (FPatch (FRename g_ h_ (B "100%") None) None FBNone)); [lk| |reflexivity|vm_compute; lia]. eexists _, _, _. split; [apply elem_of_list_singleton; reflexivity|reflexivity].
  - exists b2, c3, []. split; [lk|]. intros f. change (hi_diff ex_hist d4 b2) with D_bd.
    assert (Ht : touched D_bd f <-> f = f_ \/ f = g_).
    { split.
      - intros (p & Hp & Hf). apply elem_of_cons in Hp as [->|Hp]; [|apply elem_of_cons in Hp as [->|Hp]; [|by apply elem_of_nil in Hp]];
          (destruct Hf as [[_ Hf]|Hf]; [|done]); cbn in Hf; [by left|by right].
      - intros [->| ->]; [eexists; split; [left|]|eexists; split; [right; left|]]; left; (split; [discriminate|reflexivity]). }
    rewrite Ht. cbn [map fst]. rewrite !elem_of_cons. split; [intros [?|[?|Hn]]; [tauto..|by apply elem_of_nil in Hn]|tauto].
  - apply (Hone _ _ (creates g_ [Add z_])); [lk| |reflexivity|vm_compute; lia]. right. left. split; [reflexivity|]. split; [eexists _, _; split; [apply elem_of_list_singleton; reflexivity|reflexivity]|].
    intros (p & m & Hp & Hk). apply elem_of_list_singleton in Hp as ->. discriminate Hk.
  - apply (Hone _ _ (modifies f_ [Keep x_; Add y_])); [lk| |reflexivity|vm_compute; lia]. left. split; [reflexivity|]. eexists _, _; split; [apply elem_of_list_singleton; reflexivity|reflexivity].
  - apply (Hone _ _ (creates f_ [Add x_])); [lk| |reflexivity|vm_compute; lia]. right. left. split; [reflexivity|]. split; [eexists _, _; split; [apply elem_of_list_singleton; reflexivity|reflexivity]|].
    intros (p & m & Hp & Hk). apply elem_of_list_singleton in Hp as ->. discriminate Hk.
Qed.

(** The records of a run of [e] with this patch log and this metadata log. *)
Definition ee_show (out : list result) (meta_text : list bytes) : option (list (bytes * bytes * cstatus * list (bytes * bytes))) :=
  (fun xs => map (fun r => (mc_sha (br_commit r), br_filename r, br_status r, map (fun l => (bl_sha l, bl_name l)) (br_lines r))) (concat xs)) <$>
  records_run 0%N pl_cl ex_count (run_map 0%N any_date (unlines meta_text)).1 pl_orders ∅ 0 out.
Definition ee_records (H : history) (text : bytes) (meta_text : list bytes) : option (list (bytes * bytes * cstatus * list (bytes * bytes))) :=
  ee_show (run_top no_skip (ex_env H rev_orders) (POpts [] false false false []) (FS None None) (log_run text).1).1.1 meta_text.

Lemma pl_orders_any n : any_perm (pl_orders n).
Proof. intros l. unfold pl_orders. destruct (Nat.even n); [done|]. symmetry. apply Permutation_rev. Qed.
(** ex_hist meets the hypotheses of C60; and the records it delivers. *)
Example C60_hypotheses_hold :
  run_ready ex_hist (ex_slow ex_hist) 3 (ex_env ex_hist rev_orders) [] ∅ ex_commits /\
  UnifiedDiff.short_lines (log_lines (git_log ex_hist ex_commits)) /\
  Forall (MetaLog.wf_meta any_date) ee_entries /\ meta_log ee_entries ee_lines /\ MetaProps.short_lines ee_lines /\
  metadata_for ex_hist ex_commits ee_entries /\ (forall n, any_perm (pl_orders n)) /\ detector_works pl_cl.
Proof.
  split; [apply ex_ready, rev_orders_any|]. split; [exact ex_log_short|]. split; [exact ee_wf|]. split; [exact ee_log|]. split; [exact ee_short|].
  split; [exact ee_matches|]. split; [exact pl_orders_any|]. intros p c. exists None. reflexivity.
Qed.
Example C60_example :
  ee_records ex_hist (render_log (git_log ex_hist ex_commits)) ee_lines = Some
    [(a1, f_, Added, [(a1, B "Ann a1")]); (b2, f_, Modified, [(a1, B "Ann a1"); (b2, B "Ann b2")]); (c3, g_, Added, [(c3, B "Ann c3")]);
     (d4, f_, Modified, [(d4, B "Ann d4"); (a1, B "Ann a1"); (b2, B "Ann b2")]); (e5, h_, Added, [(c3, B "Ann c3")])].
Proof. lk. Qed.

(** ** Where C60 is false *)

(** A file whose name git quotes (here a letter that is not ASCII) has no record at all: one parser removes the quotes, the other does not. *)
Definition Q : bytes := ["034"%char].
Definition quoted_patch : bytes := unlines
  [B "commit a1"; B "Author: A <a@x>"; []; B "    title"; [];
   B "diff --git " ++ Q ++ B "a/\303\244" ++ Q ++ B " " ++ Q ++ B "b/\303\244" ++ Q; B "new file mode 100644"; B "index 0000000..1111111";
   B "--- /dev/null"; B "+++ " ++ Q ++ B "b/\303\244" ++ Q; B "@@ -0,0 +1 @@"; B "+x"].
Definition quoted_meta (name : bytes) : list bytes :=
  hdr a1 [] ++ [B ":000000 100644 0000000 1111111 A" ++ [TAB] ++ name; B "1" ++ [TAB] ++ B "0" ++ [TAB] ++ name].
Theorem C60_quoted_name_refuted :
  (log_run quoted_patch).2 = Ret tt /\ ee_records ex_hist quoted_patch (quoted_meta (Q ++ B "\303\244" ++ Q)) = Some [].
Proof. split; lk. Qed.
Print Assumptions C60_quoted_name_refuted.

(** A file that a merge deletes is reported as modified, without lines: ex2_hist. *)
Definition ee2_meta : list bytes :=
  concat (map meta_lines
   [ee_entry d4 [b2; c3] (MergeStats [(g_, g_, MetaLog.Text 0 1); (h_, h_, MetaLog.Text 1 0)] [(B "100644 100644 000000 1 2 3 DD", g_)]);
   ee_entry c3 [a1] (Changes [(ri, Plain "A" h_, MetaLog.Text 1 0)]);
   ee_entry b2 [a1] (Changes [(ri, Plain "M" f_, MetaLog.Text 1 0)]);
   ee_entry a1 [] (Changes [(ri, Plain "A" f_, MetaLog.Text 1 0); (ri, Plain "A" g_, MetaLog.Text 1 0)])]).
Theorem C60_merge_deletion_refuted :
  hi_tree ex2_hist d4 !! g_ = None /\
  exists rs, ee_records ex2_hist (render_log (git_log ex2_hist ex2_commits)) ee2_meta = Some rs /\ (d4, g_, Modified, []) ∈ rs.
Proof. split; [lk|]. eexists. split; [lk|]. apply (bool_decide_unpack _). vm_compute. exact I. Qed.
Print Assumptions C60_merge_deletion_refuted.

(** C49 for an incremental run, which reads the metadata of the commits it processes: ex_hist in two runs (see CheckpointExamples), the second one
    from the saved state of the first.  The lines of f that older commits introduced have no author in the record of the merge. *)
Theorem C49_incremental_refuted :
  process_log (ex_env ex_hist rev_orders) (pst_init (values ex_P')) (map commit_of (git_log ex_hist ex_cs2)) = (ex_s2, Ret tt) /\
  ee_show (s_out ex_s2) (concat (map meta_lines (take 3 ee_entries))) = Some
    [(c3, g_, Added, [(c3, B "Ann c3")]); (d4, f_, Modified, [(d4, B "Ann d4"); (a1, []); (b2, [])]); (e5, h_, Added, [(c3, B "Ann c3")])].
Proof. split; [exact ex_run2|lk]. Qed.
Print Assumptions C49_incremental_refuted.
