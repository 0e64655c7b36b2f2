(** * Properties of the records per file (C47-C52) *)
From Verif.Model Require Import Base GoStrings IncBlame Process CommitMeta FileInfo CodeInfo.
From Verif.Spec Require Import Text Processing Records.
From Verif.Proofs Require Import TextLemmas RecordProofs RecordMore.
From Coq Require Import Lia.

Section Props.
Context {T L : Type} (zt : T) (cl : classifiers L) (count : bytes -> bytes -> bytes -> list (Z * line_type) * totals).
Context (meta : gmap bytes (mcommit T)).
Notation records := (code_info_files zt cl count meta).

(** C47: for any order in which the files are visited and anything classified before, there is exactly one record for each path that is
    in the blame of the commit and among its files; each has that commit and the status of its file; a removed file
    has no lines, and the reason says so. *)
Theorem C47_one_record_per_file order cache x commit cache' rs :
  any_perm order -> used_cache cl cache -> meta !! r_commit x = Some commit -> records order cache x = Ret (cache', rs) ->
  NoDup (map br_filename rs) /\
  (forall p, p ∈ map br_filename rs <-> p <> [] /\ is_Some (r_files x !! p) /\ is_Some (mc_files commit !! p)) /\
  forall r, r ∈ rs -> br_commit r = commit /\
    exists f, mc_files commit !! br_filename r = Some f /\ br_status r = cf_status f /\
      (br_skipped r = B "File was removed" <-> cf_status f = Removed) /\ (cf_status f = Removed -> br_lines r = []).
Proof. apply one_record_per_file. Qed.

(** The records do not depend on the order or on what was classified before. *)
Theorem C47_order_irrelevant order1 order2 cache1 cache2 x :
  any_perm order1 -> any_perm order2 -> used_cache cl cache1 -> used_cache cl cache2 ->
  (forall c1 rs1, records order1 cache1 x = Ret (c1, rs1) -> exists c2 rs2, records order2 cache2 x = Ret (c2, rs2) /\ rs1 ≡ₚ rs2).
Proof. apply order_irrelevant. Qed.

(** There is a result whenever each target of a rename is in the blame. *)
Theorem C47_succeeds order cache x commit :
  any_perm order -> used_cache cl cache -> detector_works cl -> meta !! r_commit x = Some commit ->
  (forall p f, mc_files commit !! p = Some f -> cf_renamed f = true -> is_Some (r_files x !! cf_renamed_to f)) ->
  exists cache' rs, records order cache x = Ret (cache', rs).
Proof. apply records_succeed. Qed.

(** C48: a record that was not skipped (or only because it was generated) has one line for each line of the blame, in order, with its
    commit and exactly the classification reported for it; and the totals of the counter. *)
Theorem C48_lines_mirror_blame order cache x cache' rs r :
  any_perm order -> used_cache cl cache -> records order cache x = Ret (cache', rs) -> r ∈ rs ->
  br_skipped r = [] \/ br_skipped r = B "file was a generated file" ->
  exists b, r_files x !! br_filename r = Some b /\
    length (br_lines r) = length (b_lines b) /\
    br_size r = Z.of_nat (length (text_of b)) /\ br_totals r = (count (br_filename r) (cl_language cl (br_filename r) (text_of b)) (text_of b)).2 /\
    forall i l bl, b_lines b !! i = Some l -> br_lines r !! i = Some bl ->
      bl_sha bl = l_commit l /\ flags_right (calls_for cl count (br_filename r) b) (S i) bl /\
      forall c, meta !! l_commit l = Some c -> bl_name bl = mc_author_name c /\ bl_email bl = mc_author_email c /\ bl_date bl = mc_date c.
Proof. apply lines_mirror_blame. Qed.

(** A record that was skipped for another reason has no lines and no counts. *)
Theorem C48_skipped_has_no_counts order cache x cache' rs r :
  any_perm order -> used_cache cl cache -> records order cache x = Ret (cache', rs) -> r ∈ rs ->
  br_skipped r <> [] -> br_skipped r <> B "file was a generated file" -> br_lines r = [] /\ br_size r = 0%Z /\ br_totals r = Totals 0 0 0 0 0.
Proof. apply skipped_counts. Qed.

(** C49, if the metadata of all commits lines are attributed to was read. *)
Theorem C49_authors_partial order cache x cache' rs r :
  any_perm order -> used_cache cl cache -> records order cache x = Ret (cache', rs) -> r ∈ rs ->
  br_skipped r = [] ->
  (forall p b l, r_files x !! p = Some b -> l ∈ b_lines b -> is_Some (meta !! l_commit l)) ->
  exists b, r_files x !! br_filename r = Some b /\ Forall2 (line_of (fun c => meta !! c)) (b_lines b) (br_lines r).
Proof. apply authors_partial. Qed.

(** C49 is false otherwise: a line whose commit is not in the metadata has no author and no date.  (Incremental runs only
    read the metadata of the commits they process.) *)
Theorem C49_unknown_author_refuted order cache x cache' rs r b i l bl :
  any_perm order -> used_cache cl cache -> records order cache x = Ret (cache', rs) -> r ∈ rs -> br_skipped r = [] ->
  r_files x !! br_filename r = Some b -> b_lines b !! i = Some l -> br_lines r !! i = Some bl -> meta !! l_commit l = None ->
  bl_name bl = [] /\ bl_email bl = [] /\ bl_date bl = zt.
Proof. apply unknown_author. Qed.

(** C50: a file is classified as source (no reason to skip it) exactly if it violates no limit, otherwise the reason is that of
    the first violated limit. *)
Theorem C50_limits cache p content lines i cache' :
  used_cache cl cache -> get_info cl cache p content lines = Ret (i, cache') ->
  (i_skip i = [] <-> none_violated cl p content lines) /\
  (i_skip i <> [] -> first_violated cl p content lines (i_skip i)) /\
  (forall r, first_violated cl p content lines r -> i_skip i = r) /\
  (i_skip i = [] -> i_language i = cl_language cl p content /\ i_language i <> []).
Proof. apply limits. Qed.

(** The same for records of files that were not removed. *)
Theorem C50_records order cache x cache' rs r b :
  any_perm order -> used_cache cl cache -> records order cache x = Ret (cache', rs) -> r ∈ rs ->
  r_files x !! br_filename r = Some b -> br_status r <> Removed ->
  (none_violated cl (br_filename r) (text_of b) (map l_data (b_lines b)) <-> br_skipped r = [] \/ br_skipped r = B "file was a generated file") /\
  (forall s, first_violated cl (br_filename r) (text_of b) (map l_data (b_lines b)) s -> br_skipped r = s /\ br_lines r = []).
Proof. apply record_limits. Qed.

(** C51: what was classified before does not matter. *)
Theorem C51_history_irrelevant cache1 cache2 p content lines :
  used_cache cl cache1 -> used_cache cl cache2 ->
  match get_info cl cache1 p content lines, get_info cl cache2 p content lines with
  | Ret (i1, _), Ret (i2, _) => i1 = i2
  | Err e1, Err e2 => e1 = e2
  | Panic m1, Panic m2 => m1 = m2
  | _, _ => False
  end.
Proof. apply history_irrelevant. Qed.

(** C52: a record says generated exactly if the file is no removed one, violates no limit, and the counter reported a line with a marker
    as a comment; then it has no language. *)
Theorem C52_generated order cache x cache' rs r b :
  any_perm order -> used_cache cl cache -> records order cache x = Ret (cache', rs) -> r ∈ rs ->
  r_files x !! br_filename r = Some b ->
  (br_skipped r = B "file was a generated file" <->
     br_status r <> Removed /\ none_violated cl (br_filename r) (text_of b) (map l_data (b_lines b)) /\
     says_generated (calls_for cl count (br_filename r) b) b) /\
  (br_skipped r = B "file was a generated file" -> br_language r = []) /\
  (br_skipped r = [] -> br_language r = cl_language cl (br_filename r) (text_of b) /\ br_language r <> []).
Proof. apply generated_records. Qed.
End Props.
Print Assumptions C47_one_record_per_file.
Print Assumptions C47_order_irrelevant.
Print Assumptions C47_succeeds.
Print Assumptions C48_lines_mirror_blame.
Print Assumptions C48_skipped_has_no_counts.
Print Assumptions C49_authors_partial.
Print Assumptions C49_unknown_author_refuted.
Print Assumptions C50_limits.
Print Assumptions C50_records.
Print Assumptions C51_history_irrelevant.
Print Assumptions C52_generated.

(** ** A concrete commit *)

Definition ex_cl : classifiers N :=
  Classifiers N (fun p => has_suffix (B ".yml") p) (fun p => has_prefix (B ".") p) (fun p => contains (B "third_party/") p)
    (fun p _ => if has_suffix (B ".go") p then B "Go" else []) (fun _ _ => Ret None).
(** Lines that start with a slash are comments, empty ones blank, others code. *)
Definition ex_count (p lang content : bytes) : list (Z * line_type) * totals :=
  (imap (fun i l => (Z.of_nat (S i), match l with [] => LBlank | c :: _ => if bool_decide (c = SLASH) then LComment else LCode end))
     (removelast (split_char NL content)), Totals 3 1 1 1 0).
Definition ex_commit (sha : bytes) (name : bytes) (files : list (bytes * cfile)) : mcommit N :=
  MCommit sha name (B "x@y") (B "Carl") (B "c@d") 5%N 1 (B "subject") [] (list_to_map files).
Definition ex_meta : gmap bytes (mcommit N) :=
  list_to_map [(B "aaaa", ex_commit (B "aaaa") (B "Ann") []);
               (B "bbbb", ex_commit (B "bbbb") (B "Bob")
                  [(B "m.go", plain_file (B "m.go") Modified); (B "old.go", plain_file (B "old.go") Removed);
                   (B "gen.go", plain_file (B "gen.go") Added); (B "ci.yml", plain_file (B "ci.yml") Added);
                   (B "stats-only.go", plain_file (B "stats-only.go") Added)])].
Definition ex_result : result :=
  Result (B "bbbb") (list_to_map
    [(B "m.go", Blame (B "bbbb") [Line (B "// hi") (B "aaaa"); Line [] (B "bbbb"); Line (B "x()") (B "cccc")] false);
     (B "old.go", Blame (B "bbbb") [] false);
     (B "gen.go", Blame (B "bbbb") [Line (B "// GENERATED") (B "bbbb")] false);
     (B "ci.yml", Blame (B "bbbb") [Line (B "a: b") (B "bbbb")] false);
     (B "blame-only.go", Blame (B "bbbb") [Line (B "a") (B "bbbb")] false)]).
Definition ex_records : list (bytes * bytes * list (bytes * bytes * N * (bool * bool * bool))) :=
  match code_info_files 0%N ex_cl ex_count ex_meta (@rev _) ∅ ex_result with
  | Ret (_, rs) => map (fun r => (br_filename r, br_skipped r, map (fun l => (bl_sha l, bl_name l, bl_date l, (bl_comment l, bl_code l, bl_blank l))) (br_lines r))) rs
  | _ => []
  end.

(** The hypotheses of C47-C52 hold for it; the last line of m.go, of a commit that is not in the metadata, has no author (C49). *)
Example C47_hypotheses_hold :
  any_perm (@rev (bytes * blame)) /\ used_cache ex_cl ∅ /\ detector_works ex_cl /\ is_Some (ex_meta !! r_commit ex_result) /\
  exists c' rs, code_info_files 0%N ex_cl ex_count ex_meta (@rev _) ∅ ex_result = Ret (c', rs) /\ length rs = 4.
Proof.
  split; [intros l; symmetry; apply Permutation_rev|]. split; [apply used_new|]. split; [intros p c; exists None; reflexivity|].
  split; [unfold ex_meta; cbn [r_commit ex_result]; eexists; apply elem_of_list_to_map_1; [apply (bool_decide_unpack _); vm_compute; exact I|right; left]|].
  assert (Hl : (match code_info_files 0%N ex_cl ex_count ex_meta (@rev _) ∅ ex_result with Ret (_, rs) => Some (length rs) | _ => None end) = Some 4) by (vm_compute; reflexivity).
  destruct (code_info_files 0%N ex_cl ex_count ex_meta (@rev _) ∅ ex_result) as [[c' rs]|e|m]; [|discriminate Hl|discriminate Hl].
  exists c', rs. split; [reflexivity|]. injection Hl as Hl. exact Hl.
Qed.
Example C48_example :
  (B "m.go", [], [(B "aaaa", B "Ann", 5%N, (true, false, false)); (B "bbbb", B "Bob", 5%N, (false, false, true)); (B "cccc", [], 0%N, (false, true, false))]) ∈ ex_records.
Proof. apply (bool_decide_unpack _). vm_compute. exact I. Qed.
Example C52_example :
  (B "gen.go", B "file was a generated file", [(B "bbbb", B "Bob", 5%N, (true, false, false))]) ∈ ex_records /\
  (B "old.go", B "File was removed", []) ∈ ex_records /\ (B "ci.yml", B "File was a config file", []) ∈ ex_records.
Proof. split; [|split]; apply (bool_decide_unpack _); vm_compute; exact I. Qed.
(** Limits of C50 that are and are not met, and a path on the exclusion list. *)
Example C50_hypotheses_hold :
  none_violated ex_cl (B "m.go") (B "x" ++ [NL]) [B "x"] /\ first_violated ex_cl (B "third_party/m.go") [] [] (B "File was a vendored file") /\
  first_violated ex_cl (B "src/README.go") [] [] (B "File was on an exclusion list").
Proof.
  assert (forall p content lines, exists i c, get_info ex_cl ∅ p content lines = Ret (i, c)) as Htot.
  { intros p content lines. unfold get_info. destruct (_ <? _)%N; [eexists _, _; reflexivity|]. destruct (possible_license p); cbn [cl_license ex_cl obind];
      destruct (check_file_path ex_cl ∅ p) as [sk c']; destruct (bool_decide (sk <> [])); try (eexists _, _; reflexivity);
      destruct (_ <? _)%N; try (eexists _, _; reflexivity); destruct (first_long_line lines); try (eexists _, _; reflexivity);
      destruct (bool_decide _); eexists _, _; reflexivity. }
  assert (forall p content lines s, (match get_info ex_cl ∅ p content lines with Ret (i, _) => i_skip i | _ => [] end) = s ->
    (s = [] -> none_violated ex_cl p content lines) /\ (s <> [] -> first_violated ex_cl p content lines s)) as Hx.
  { intros p content lines s. destruct (Htot p content lines) as (i & c & E). rewrite E. intros <-.
    destruct (C50_limits ex_cl ∅ p content lines i c (used_new _) E) as (H1 & H2 & _). split; [intros Hs; by rewrite <- H1|exact H2]. }
  split; [|split].
  - refine (proj1 (Hx _ _ _ [] _) eq_refl). vm_compute. reflexivity.
  - refine (proj2 (Hx _ _ _ _ _) _); [vm_compute; reflexivity|discriminate].
  - refine (proj2 (Hx _ _ _ _ _) _); [vm_compute; reflexivity|discriminate].
Qed.
