(** * Properties of the commit metadata (C45, C46; C11 for this log) *)
From Verif.Model Require Import Base GoStrings CommitMeta.
From Verif.Spec Require Import Text MetaLog.
From Verif.Proofs Require Import TextLemmas MetaNames TrimProofs MetaParse.
From Coq Require Import Lia.

Notation short_lines := (Forall (fun l : bytes => (N.of_nat (length l) < 65536)%N)).

Section Props.
Context {T : Type} (zero_time : T) (parse_date : bytes -> option T).
Implicit Types (e : meta_entry T).

(** C45: parsing the metadata log yields each commit once, in order, numbered 1, 2, 3, ..., with its hash, parents, author, committer, date
    and subject, and its changed files with status, counts and binary flag.  Partial: see [wf_meta] (paths that do not start with a
    blank, no name that looks like a rename, no addition or removal of a symbolic link or submodule), lines below 64 KB, and for
    merges the files are those changed against the first parent, all reported as modified. *)
Theorem C45_log_recovered_partial es ls :
  Forall (wf_meta parse_date) es -> meta_log es ls -> short_lines ls ->
  run_meta zero_time parse_date (unlines ls) = (imap (fun i e => meta_commit (S i) e) es, Ret tt).
Proof. apply run_meta_ok. Qed.

(** The same by commit id, as the code reporting records uses it. *)
Theorem C45_by_id_partial es ls i e :
  Forall (wf_meta parse_date) es -> meta_log es ls -> short_lines ls -> NoDup (map me_sha es) -> es !! i = Some e ->
  (run_map zero_time parse_date (unlines ls)).1 !! me_sha e = Some (meta_commit (S i) e).
Proof.
  intros He Hl Hs Hd Hi. unfold run_map. rewrite (run_meta_ok _ _ es) by done. simpl.
  assert (Hg : forall (cs : list (mcommit T)) (m : gmap bytes (mcommit T)), NoDup (map mc_sha cs) ->
    (forall c, c ∈ cs -> fold_left (fun m c => <[mc_sha c := c]> m) cs m !! mc_sha c = Some c) /\
    (forall k, k ∉ map mc_sha cs -> fold_left (fun m c => <[mc_sha c := c]> m) cs m !! k = m !! k)).
  { induction cs as [|c cs IH]; intros m Hn; simpl; [split; [intros c H; by apply elem_of_nil in H|done]|].
    simpl in Hn. apply NoDup_cons in Hn as [Hc Hn]. destruct (IH (<[mc_sha c := c]> m) Hn) as [IH1 IH2]. split.
    - intros c' [->|H]%elem_of_cons; [|by apply IH1]. rewrite IH2 by done. apply lookup_insert.
    - intros k [H1 H2]%not_elem_of_cons. rewrite IH2 by done. by apply lookup_insert_ne. }
  destruct (Hg (imap (fun i e => meta_commit (S i) e) es) ∅) as [H _].
  - replace (map mc_sha (imap (fun i e => meta_commit (S i) e) es)) with (map me_sha es); [done|].
    clear. assert (forall n, map mc_sha (imap (fun i e => meta_commit (n + i) e) es) = map me_sha es) as H.
    { induction es as [|e es IH]; intros n; [done|]. simpl. f_equal. rewrite <- (IH (S n)). f_equal. apply imap_ext. intros. simpl. f_equal. lia. }
    symmetry. apply (H 1).
  - change (me_sha e) with (mc_sha (meta_commit (S i) e)). apply H. apply elem_of_list_lookup. exists i.
    by rewrite list_lookup_imap, Hi.
Qed.

(** Nothing else is found. *)
Theorem C45_no_others_partial es ls c :
  Forall (wf_meta parse_date) es -> meta_log es ls -> short_lines ls -> c ∉ map me_sha es ->
  (run_map zero_time parse_date (unlines ls)).1 !! c = None.
Proof.
  intros He Hl Hs Hc. unfold run_map. rewrite (run_meta_ok _ _ es) by done. simpl.
  assert (Hg : forall (cs : list (mcommit T)) (m : gmap bytes (mcommit T)), c ∉ map mc_sha cs -> fold_left (fun m c => <[mc_sha c := c]> m) cs m !! c = m !! c).
  { induction cs as [|x cs IH]; intros m Hn; simpl; [done|]. simpl in Hn. apply not_elem_of_cons in Hn as [Hne Hn]. rewrite IH by done. by apply lookup_insert_ne. }
  rewrite Hg; [apply lookup_empty|]. intros Hin. apply Hc. apply elem_of_list_In, in_map_iff in Hin as (x & <- & Hx%elem_of_list_In).
  apply elem_of_lookup_imap in Hx as (i & m & -> & Hm). apply elem_of_list_In, in_map_iff. exists m. split; [done|]. apply elem_of_list_In. by eapply elem_of_list_lookup_2.
Qed.

(** A date that cannot be read is an error, after all earlier commits were delivered. *)
Theorem C45_bad_date_is_error es e ls rest :
  Forall (wf_meta parse_date) es -> meta_log es ls -> wf_header e -> parse_date (me_date e) = None ->
  Forall text_line rest -> short_lines (ls ++ entry_header e ++ rest) ->
  exists m, run_meta zero_time parse_date (unlines (ls ++ entry_header e ++ rest)) = (imap (fun i e => meta_commit (S i) e) es, Err m).
Proof. intros. apply run_meta_bad_date; done. Qed.

(** C46: the counts of a plain change are recorded under the path itself.  Partial: for paths without [" => "] (and the other
    conditions of [wf_meta]). *)
Theorem C46_counts_under_path_partial es ls i e cs r l p n :
  Forall (wf_meta parse_date) es -> meta_log es ls -> short_lines ls ->
  es !! i = Some e -> me_body e = Changes cs -> (r, Plain l p, n) ∈ cs ->
  exists c f, (run_meta zero_time parse_date (unlines ls)).1 !! i = Some c /\ mc_sha c = me_sha e /\
    mc_files c !! p = Some f /\ cf_name f = p /\ cf_adds f = adds_of n /\ cf_dels f = dels_of n /\ cf_binary f = is_bin n.
Proof.
  intros He Hl Hs Hi Hb Hin. rewrite (run_meta_ok _ _ es) by done. simpl. rewrite list_lookup_imap, Hi. simpl.
  exists (meta_commit (S i) e), (CFile p (status_of l) false false [] [] [] (adds_of n) (dels_of n) (is_bin n)).
  split; [reflexivity|]. split; [done|]. split; [|done].
  simpl. rewrite Forall_forall in He. assert (wf_meta parse_date e) as (_&_&Hd&_) by (apply He; by eapply elem_of_list_lookup_2).
  rewrite Hb in *. simpl in *. apply elem_of_list_to_map_1; [exact Hd|].
  apply elem_of_list_In, in_concat. exists (change_files (r, Plain l p, n)). split; [|by left].
  apply in_map. by apply elem_of_list_In.
Qed.

(** C46 is false for every path that contains [" => "]: its counts are recorded under another name. *)
Theorem C46_arrow_path_refuted e r l p n :
  wf_meta parse_date e -> me_body e = Changes [] ->
  field (ri_old_mode r) -> field (ri_old_id r) -> field (ri_new_id r) -> regular_mode (ri_new_mode r) ->
  l ∈ ["A"; "D"; "M"; "T"]%char -> path_text p -> has_arrow p -> wf_counts n ->
  let log := entry_header e ++ [raw_line (r, Plain l p, n); stat_line (r, Plain l p, n)] in
  short_lines log ->
  exists c f, run_meta zero_time parse_date (unlines log) = ([c], Ret tt) /\
    mc_files c !! p = Some f /\ cf_adds f = 0%Z /\ cf_dels f = 0%Z /\ cf_binary f = false.
Proof.
  intros. destruct (arrow_change zero_time parse_date e r l p n (status_of l)) as (c & Hc & Hf); try done.
  exists c, (plain_file p (status_of l)). done.
Qed.

(** C11 is false for this log: a line of 64 KB or more (for instance a long commit subject) ends it.  What was read before is returned
    as if it were everything, with no error.  (The program dies after that: C11_metadata_log_crash.) *)
Theorem C11_metadata_log_truncated_refuted es ls l rest :
  Forall (wf_meta parse_date) es -> meta_log es ls -> short_lines ls ->
  NL ∉ l -> (65536 <= N.of_nat (length l))%N -> Forall no_nl rest ->
  run_meta zero_time parse_date (unlines (ls ++ l :: rest)) = (imap (fun i e => meta_commit (S i) e) es, Ret tt).
Proof.
  intros He Hl Hs H1 H2 H3. rewrite run_meta_long; [by apply run_meta_ok| |done..].
  assert (Hg : Forall good_line (concat (map meta_lines es))).
  { clear -He. induction He as [|e es H _ IH]; [constructor|]. cbn [map concat]. apply Forall_app. split; [by eapply good_meta|done]. }
  unfold meta_log in Hl. rewrite <- Hl in Hg. rewrite Forall_forall in Hg |- *. intros x Hx.
  destruct (decide (x = [])) as [->|Hne]; [by apply const_no_nl|]. apply Hg. by apply elem_of_list_filter.
Qed.
End Props.
Print Assumptions C45_log_recovered_partial.
Print Assumptions C45_by_id_partial.
Print Assumptions C45_no_others_partial.
Print Assumptions C45_bad_date_is_error.
Print Assumptions C46_counts_under_path_partial.
Print Assumptions C46_arrow_path_refuted.
Print Assumptions C11_metadata_log_truncated_refuted.

(** ** Concrete logs *)

Definition any_date (d : bytes) : option N := Some (N.of_nat (length d)).
Definition hdr (sha : bytes) (parents : list bytes) : list bytes :=
  entry_header (MetaEntry sha parents (B "c@x") (B "Carl") (B "a@x") (B "Ann") (B "2019-01-01T00:00:00Z") 20%N (B "subject") (Changes [])).
Definition status_at (p : bytes) (r : list (mcommit N) * outcome unit) : list (option cstatus) :=
  map (fun c => cf_status <$> mc_files c !! p) r.1.

(** C45 is false for merges: a file the merge adds (it is in no parent) is reported as modified. *)
Theorem C45_merge_status_refuted :
  status_at (B "f") (run_meta 0%N any_date (unlines
    (hdr (B "aaaa") [B "p1"; B "p2"] ++ [[]; B "1" ++ [TAB] ++ B "0" ++ [TAB] ++ B "f";
      B "::000000 000000 100644 0000000 0000000 1dbddb0 AA" ++ [TAB] ++ B "f"]))) = [Some Modified].
Proof. vm_compute. reflexivity. Qed.

(** C45 is false for symbolic links: an added one is reported as modified. *)
Theorem C45_symlink_status_refuted :
  status_at (B "link") (run_meta 0%N any_date (unlines
    (hdr (B "aaaa") [] ++ [[]; B ":000000 120000 0000000 1dbddb0 A" ++ [TAB] ++ B "link"; B "1" ++ [TAB] ++ B "0" ++ [TAB] ++ B "link"]))) = [Some Modified].
Proof. vm_compute. reflexivity. Qed.

(** C45 is false for paths that start with a blank: such a file is reported twice, under its name as modified and under a trimmed name. *)
Theorem C45_leading_blank_refuted :
  map (fun c => (length (map_to_list (mc_files c)), cf_status <$> mc_files c !! B " f", cf_adds <$> mc_files c !! B "f"))
    (run_meta 0%N any_date (unlines
    (hdr (B "aaaa") [] ++ [[]; B ":000000 100644 0000000 1dbddb0 A" ++ [TAB] ++ B " f"; B "7" ++ [TAB] ++ B "0" ++ [TAB] ++ B " f"]))).1 = [(2, Some Modified, Some 0%Z)].
Proof. vm_compute. reflexivity. Qed.

Definition rg (m : string) : raw_info := RawInfo (B "100644") (B m) (B "d1a02ae") (B "a452aaa").
Definition ex_root : meta_entry N :=
  MetaEntry (B "aaaa") [] (B "c@x") (B "Carl") (B "a@x") (B "Ann B.") (B "2019-01-01T00:00:00Z") 20%N (B "!SHA: tricky subject")
    (Changes [(rg "100644", Plain "A" (B "src/old/x y.go"), Text 10 0); (rg "100755", Plain "A" (B "bin"), Bin)]).
Definition ex_second : meta_entry N :=
  MetaEntry (B "bbbb") [B "aaaa"] (B "c@x") (B "Carl") (B "a@x") [] (B "2019-01-02T00:00:00Z") 20%N []
    (Changes [(rg "100644", Renamed (B "090") (B "src/old/x y.go") (B "src/x y.go") (B "src/{old => }/x y.go"), Text 1 2);
              (rg "000000", Plain "D" (B "bin"), Bin); (rg "120000", Plain "T" (B "link"), Text 1 3)]).
Definition ex_merge : meta_entry N :=
  MetaEntry (B "cccc") [B "bbbb"; B "dddd"] (B "c@x") (B "Carl") (B "a@x") (B "Ann B.") (B "2019-01-03T00:00:00Z") 20%N (B "merge")
    (MergeStats [(B "a", B "a", Text 3 0)] [(B "100644 100644 100644 1 2 3 MM", B "a")]).

Local Ltac ni := (apply not_in_const; reflexivity).
Local Ltac flds := (split; [ni|split; [ni|split; [ni|ni]]]).
Local Ltac wrd := (split; [discriminate|flds]).
Local Ltac txt := (split; [ni|apply ntc_not; ni]).
Local Ltac pth := (split; [discriminate|split; [ni|split; [ni|split; [apply ntc_not; ni|intros ?; discriminate]]]]).
Local Ltac noarrow := (intros (? & ? & E); match type of E with ?x = _ => assert (">"%char ∉ x) as Hn by ni; rewrite E in Hn; apply Hn, elem_of_app; right; right; right; left end).
Local Ltac hdrs := (split; [wrd|split; [repeat (apply Forall_cons_2; [wrd|]); apply Forall_nil_2|split; [txt|split; [txt|split; [txt|split; [txt|split; [wrd|split; [apply bare_solid; repeat (apply Forall_cons; split; [reflexivity|]); by apply Forall_nil|txt]]]]]]]]).
Local Ltac nodup := (apply (bool_decide_unpack _); vm_compute; exact I).
Local Ltac infos := (split; [flds|split; [flds|split; [flds|]]]).
Local Ltac letter := (apply (bool_decide_unpack _); vm_compute; exact I).

Example C45_hypotheses_hold :
  exists ls, Forall (wf_meta any_date) [ex_root; ex_second; ex_merge] /\ meta_log [ex_root; ex_second; ex_merge] ls /\ short_lines ls /\
    NoDup (map me_sha [ex_root; ex_second; ex_merge]).
Proof.
  exists (meta_lines ex_root ++ [[]] ++ meta_lines ex_second ++ [[]; []] ++ meta_lines ex_merge).
  split; [|split; [|split]].
  - apply Forall_cons_2; [|apply Forall_cons_2; [|apply Forall_cons_2; [|apply Forall_nil_2]]].
    + split; [hdrs|]. split; [reflexivity|]. split; [nodup|]. cbn [me_body ex_root].
      apply Forall_cons_2; [|apply Forall_cons_2; [|apply Forall_nil_2]].
      * infos. split; [split; reflexivity|]. split; [letter|]. split; [pth|]. split; [noarrow|]. left. by left.
      * infos. split; [exact I|]. split; [letter|]. split; [pth|]. split; [noarrow|]. left. right. by left.
    + split; [hdrs|]. split; [reflexivity|]. split; [nodup|]. cbn [me_body ex_second].
      apply Forall_cons_2; [|apply Forall_cons_2; [|apply Forall_cons_2; [|apply Forall_nil_2]]].
      * infos. split; [split; reflexivity|]. split; [flds|]. split; [discriminate|]. split; [pth|]. split; [pth|]. split; [by left|].
        split; [|split; [ni|split; [ni|apply ntc_not; ni]]].
        right. exists (B "src/old/x y.go"). split; [|split; [|split; [|split]]].
        -- apply (shown_parts (B "src/") (B "old") [] (B "/x y.go")).
           ++ right. by exists (B "src").
           ++ right. by exists (B "x y.go").
           ++ done.
           ++ intros _. split; discriminate.
        -- apply Forall_forall. apply (Forall_forall _ _). repeat (apply Forall_cons_2; [split; [discriminate|split; discriminate]|]). apply Forall_nil_2.
        -- repeat (apply Forall_cons_2; [split; [discriminate|split; discriminate]|]). apply Forall_nil_2.
        -- split; [ni|split; ni].
        -- split; [ni|split; ni].
      * infos. split; [exact I|]. split; [letter|]. split; [pth|]. split; [noarrow|]. left. right. by right.
      * infos. split; [split; reflexivity|]. split; [letter|]. split; [pth|]. split; [noarrow|]. right. split; [flds|reflexivity].
    + split; [hdrs|]. split; [reflexivity|]. split; [nodup|]. cbn [me_body ex_merge].
      split; [discriminate|]. split.
      * apply Forall_cons_2; [|apply Forall_nil_2]. split; [left; split; [done|noarrow]|].
        split; [ni|]. split; [ni|]. split; [apply ntc_not; ni|]. split; [discriminate|split; reflexivity].
      * apply Forall_cons_2; [|apply Forall_nil_2]. split; [ni|]. split; [ni|pth].
  - vm_compute. reflexivity.
  - apply (bool_decide_unpack _). vm_compute. exact I.
  - nodup.
Qed.

Example C46_hypotheses_hold : has_arrow (B "a => b") /\ path_text (B "a => b").
Proof. split; [by exists (B "a"), (B "b")|pth]. Qed.
