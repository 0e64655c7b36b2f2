(** * Properties C01-C09: parsing and applying one file's patch *)
From Verif.Model Require Import Base GoStrings IncBlame IncBlameHeap.
From Verif.Spec Require Import Text UnifiedDiff Attribution.
From Verif.Proofs Require Import TextLemmas HunkHeader ParsePatch ApplyPatch IncBlameMore QuotedNames MergeBlame.
From Coq Require Import Lia.

(** ** A concrete patch meeting the hypotheses below: lines 2 and 5 of a seven-line file change, one is appended. *)
Definition ex_hunks : list shunk :=
  [SHunk [] [(Keep (B "one"), false); (Del (B "two"), false); (Add (B "TWO"), false); (Keep (B "three"), false);
             (Keep (B "four"), false); (Keep (B "five"), false)] (B " func main() {");
   SHunk [B "six"] [(Keep (B "seven"), false); (Keep (B "eight"), false); (Keep (B "nine"), false);
             (Keep (B "ten"), true); (Add (B "ten"), false); (Add (B "eleven"), true)] []].
Definition ex_patch : fpatch := FPatch (FModify (B "src/a b.txt") None) (Some (B "43f9419..1671209 100644")) (FBText ex_hunks).
Definition ex_file : blame :=
  Blame (B "c1") (map (fun t => Line t (B "c1")) (old_text (script ex_hunks []))) false.

Example ex_wf : wf_patch ex_patch.
Proof.
  split_and!; cbn; try done. split; [done|]. repeat constructor; try (by apply const_no_nl).
Qed.
Example ex_short : short_lines (patch_lines ex_patch).
Proof. unfold short_lines. repeat constructor. Qed.
Example ex_context : has_context 3 0 true ex_hunks.
Proof.
  cbn. split_and!; auto. right. exists [B "seven"; B "eight"; B "nine"]. by eexists.
Qed.

(** ** C01 *)

(** The patch git prints (with the default three, or at least two, lines of context), parsed and applied to blame data whose
    lines are the old version's, yields the new version's lines.  Line texts are compared up to the trailing carriage
    returns that the scanners drop; for a file without them the result is exact. *)
Theorem C01_apply_reproduces_new_file p hs tail file commit k :
  wf_patch p -> short_lines (patch_lines p) -> fp_body p = FBText hs ->
  (forall q m, fp_kind p <> FDelete q m) ->
  2 <= k -> has_context k 0 true hs ->
  b_binary file = false ->
  Forall2 same_up_to_cr (texts (b_lines file)) (old_text (script hs tail)) ->
  exists d b,
    parse (render_patch p) = Ret d /\ apply file d commit = Ret b /\
    Forall2 same_up_to_cr (texts (b_lines b)) (new_text (script hs tail)) /\
    (texts (b_lines file) = old_text (script hs tail) -> Forall no_trailing_cr (new_text (script hs tail)) ->
     texts (b_lines b) = new_text (script hs tail)).
Proof. exact (parse_apply_texts p hs tail file commit k). Qed.
Print Assumptions C01_apply_reproduces_new_file.

Example C01_hypotheses_hold : exists d b,
  parse (render_patch ex_patch) = Ret d /\ apply ex_file d (B "c2") = Ret b /\
  texts (b_lines b) = new_text (script ex_hunks []).
Proof.
  destruct (C01_apply_reproduces_new_file ex_patch ex_hunks [] ex_file (B "c2") 3) as (d & b & H1 & H2 & _ & H4);
    [exact ex_wf|exact ex_short|done|done|lia|exact ex_context|done| |].
  { cbn. repeat constructor; apply same_up_to_cr_refl. }
  exists d, b. split; [exact H1|]. split; [exact H2|]. apply H4; [reflexivity|]. apply no_trailing_cr_check. reflexivity.
Qed.

(** With one line of context the statement is false: the abbreviated hunk header "-3" is read as offset 0. *)
Definition ctx1_hunks : list shunk := [SHunk [B "a"; B "b"] [(Keep (B "c"), false); (Add (B "d"), false)] []].
Definition ctx1_patch : fpatch := FPatch (FModify (B "f") None) None (FBText ctx1_hunks).
Definition ctx1_file : blame := Blame (B "c1") (map (fun t => Line t (B "c1")) [B "a"; B "b"; B "c"]) false.
Theorem C57_one_line_of_context_refuted :
  wf_patch ctx1_patch /\ short_lines (patch_lines ctx1_patch) /\ has_context 1 0 true ctx1_hunks /\
  texts (b_lines ctx1_file) = old_text (script ctx1_hunks []) /\
  new_text (script ctx1_hunks []) = [B "a"; B "b"; B "c"; B "d"] /\
  exists d b, parse (render_patch ctx1_patch) = Ret d /\ apply ctx1_file d (B "c2") = Ret b /\
              texts (b_lines b) = [B "a"; B "d"; B "b"; B "c"].
Proof.
  split; [|split; [|split; [|split; [reflexivity|split; [reflexivity|]]]]].
  - split_and!; cbn; try done. split; [done|]. repeat constructor; try (by apply const_no_nl).
  - unfold short_lines. repeat constructor.
  - cbn. split_and!; auto. right. exists [B "c"]. by eexists.
  - eexists _, _. split_and!; vm_compute; reflexivity.
Qed.
Print Assumptions C57_one_line_of_context_refuted.

(** ** C02 *)
Theorem C02_attribution p hs tail file commit k :
  wf_patch p -> short_lines (patch_lines p) -> fp_body p = FBText hs ->
  (forall q m, fp_kind p <> FDelete q m) ->
  2 <= k -> has_context k 0 true hs ->
  b_binary file = false -> length (b_lines file) = length (old_text (script hs tail)) ->
  exists d b,
    parse (render_patch p) = Ret d /\ apply file d commit = Ret b /\
    b_commit b = commit /\ b_binary b = false /\
    attributed cr_trimmed commit (script hs tail) (b_lines file) (b_lines b).
Proof. exact (parse_apply_attributed_cr p hs tail file commit k). Qed.
Print Assumptions C02_attribution.

(** ... for every diff whatsoever (well-formed or not): if Apply returns, each line of the result is a line of the old
    blame, unchanged, or is attributed to the commit. *)
Theorem C02_no_other_commit file d commit b :
  apply file d commit = Ret b ->
  b_commit b = commit /\ b_binary b = false /\
  forall l, l ∈ b_lines b -> l ∈ b_lines file \/ l_commit l = commit.
Proof. exact (apply_lines_origin file d commit b). Qed.
Print Assumptions C02_no_other_commit.

Example C02_hypotheses_hold : length (b_lines ex_file) = length (old_text (script ex_hunks [])).
Proof. done. Qed.

(** ** C03 *)
Theorem C03_hunk_order_irrelevant file d hs' commit :
  hs' ≡ₚ d_hunks d -> NoDup (map (fun h => hl_off <$> head (hk_locs h)) (d_hunks d)) ->
  apply file (Diff (d_prev d) (d_path d) (d_binary d) hs') commit = apply file d commit.
Proof. exact (apply_perm file d hs' commit). Qed.
Print Assumptions C03_hunk_order_irrelevant.

(** sort.Slice is unstable: whichever sorted arrangement it produces, the blame is the same. *)
Theorem C03_any_sort_result {L} (old : list L) hs ks ks' :
  omapM hunk_key hs = Ret ks -> NoDup (map (fun h => hl_off <$> head (hk_locs h)) hs) ->
  ks' ≡ₚ ks -> StronglySorted (fun a b => (fst a <= fst b)%Z) ks' -> apply_sorted old ks' = apply_core old hs.
Proof. exact (apply_any_sort old hs ks ks'). Qed.
Print Assumptions C03_any_sort_result.

Example C03_hypotheses_hold : exists d, parse (render_patch ex_patch) = Ret d /\
  length (d_hunks d) = 2 /\ NoDup (map (fun h => hl_off <$> head (hk_locs h)) (d_hunks d)).
Proof. eexists. split_and!; [vm_compute; reflexivity|done|]. cbn. apply (bool_decide_eq_true_1 (NoDup _)). done. Qed.

(** ** C04 *)

(** Offset [off] denotes the place after [pos] lines: 1-based, 0 also standing for the top of the file. *)
Definition denotes (off : Z) (pos : nat) : Prop := off = (Z.of_nat pos + 1)%Z \/ (pos = 0 /\ off = 0%Z).

Theorem C04_hunk_located_partial opos ocnt npos ncnt heading :
  2 <= ocnt \/ opos = 0 ->
  exists d a, parse_context (hunk_header opos ocnt npos ncnt heading) = Ret [d; a] /\
    hl_op d = OpDel /\ hl_op a = OpAdd /\ denotes (hl_off d) opos.
Proof. exact (header_located opos ocnt npos ncnt heading). Qed.
Print Assumptions C04_hunk_located_partial.

(** The two forms that are located wrongly, for every position: "-start" below line 1 and "-start,0" below line 0. *)
Theorem C04_abbreviated_form_refuted opos npos ncnt heading :
  0 < opos ->
  (exists d a, parse_context (hunk_header opos 1 npos ncnt heading) = Ret [d; a] /\ hl_off d = 0%Z /\ ~ denotes (hl_off d) opos) /\
  (exists d a, parse_context (hunk_header opos 0 npos ncnt heading) = Ret [d; a] /\ hl_off d = Z.of_nat opos /\ ~ denotes (hl_off d) opos).
Proof. exact (header_mislocated opos npos ncnt heading). Qed.
Print Assumptions C04_abbreviated_form_refuted.

(** ** C05 *)
Theorem C05_unquoted_names p :
  wf_patch p -> short_lines (patch_lines p) ->
  exists d, parse (render_patch p) = Ret d /\
    d_prev d = name_before (fp_kind p) /\ d_path d = name_after (fp_kind p) /\
    d_binary d = is_binary_body (fp_body p).
Proof. exact (parse_names p). Qed.
Print Assumptions C05_unquoted_names.

Example C05_hypotheses_hold :
  let p := FPatch (FRename (B "a b/x b/y") (B "q  b/z ") (B "95%") None) None FBNone in
  wf_patch p /\ short_lines (patch_lines p) /\
  parse (render_patch p) = Ret (Diff (B "a b/x b/y") (B "q  b/z ") false []).
Proof.
  split_and!; try done; try (unfold short_lines; repeat constructor); try (vm_compute; reflexivity).
Qed.

(** ** C06: refuted for every quoted name *)

(** A quoted name without spaces is reported without its quotes when the file changes, but with them when it is renamed;
    a quoted name with a space is not reported at all when the file changes (both names empty: a removal of ""). *)
Theorem C06_quoted_names_refuted q q' :
  escaped_name q -> escaped_name q' -> short_name q -> short_name q' ->
  exists dm dr, parse (quoted_mode_change q) = Ret dm /\ parse (quoted_rename q q') = Ret dr /\
    (SP ∉ q -> d_path dm = q /\ d_prev dm = q) /\
    (SP ∈ q -> d_path dm = [] /\ d_prev dm = []) /\
    d_prev dr = quoted q /\ d_path dr = quoted q' /\ d_path dm <> d_prev dr.
Proof. exact (quoted_names_differ q q'). Qed.
Print Assumptions C06_quoted_names_refuted.

Example C06_hypotheses_hold : escaped_name (B "\303\251.txt") /\ short_name (B "\303\251.txt").
Proof. done. Qed.

(** ** C07 *)
Theorem C07_merge_attribution k ps commit merged :
  2 <= k -> ps <> [] -> Forall (merge_parent_ok k commit) ps ->
  (forall p, p ∈ ps -> new_text (mp_script p) = merged) ->
  exists ds b,
    Forall2 (fun p d => parse (render_patch (mp_patch p)) = Ret d) ps ds /\
    apply_merge (map mp_blame ps) ds commit = Ret b /\ b_commit b = commit /\
    Forall2 same_up_to_cr (texts (b_lines b)) merged /\
    forall n l, b_lines b !! n = Some l ->
      (exists j p o, ps !! j = Some p /\ kept_line p n o /\
          (forall i pi, i < j -> ps !! i = Some pi -> added_line pi n) /\ l_commit l = l_commit o)
      \/ ((forall i pi, ps !! i = Some pi -> added_line pi n) /\ l_commit l = commit).
Proof. exact (merge_attribution k ps commit merged). Qed.
Print Assumptions C07_merge_attribution.

(** Two parents: the merge keeps line 2 of the first and line 3 of the second, and adds one of its own at the end. *)
Definition ex_parent (ls : list (edit * bool)) (cs : list bytes) : mparent :=
  MParent (Blame (B "p") (zip_with Line (old_text (map fst ls)) cs) false)
          (FPatch (FModify (B "f") None) None (FBText [SHunk [] ls []])) [SHunk [] ls []] [].
Definition ex_parents : list mparent :=
  [ex_parent [(Keep (B "a"), false); (Keep (B "X"), false); (Del (B "c"), false); (Add (B "Y"), false); (Add (B "new"), false)]
             [B "c0"; B "c1"; B "c0"];
   ex_parent [(Keep (B "a"), false); (Del (B "b"), false); (Add (B "X"), false); (Keep (B "Y"), false); (Add (B "new"), false)]
             [B "c0"; B "c0"; B "c2"]].
Example C07_hypotheses_hold :
  Forall (merge_parent_ok 3 (B "m")) ex_parents /\
  (forall p, p ∈ ex_parents -> new_text (mp_script p) = [B "a"; B "X"; B "Y"; B "new"]) /\
  exists ds b, Forall2 (fun p d => parse (render_patch (mp_patch p)) = Ret d) ex_parents ds /\
    apply_merge (map mp_blame ex_parents) ds (B "m") = Ret b /\
    b_lines b = [Line (B "a") (B "c0"); Line (B "X") (B "c1"); Line (B "Y") (B "c2"); Line (B "new") (B "m")].
Proof.
  split_and!.
  - repeat constructor; try done; try (by apply const_no_nl); try (by apply same_up_to_cr_refl); cbn; auto.
  - intros p Hp. repeat (apply elem_of_cons in Hp as [->|Hp]; [reflexivity|]). by apply elem_of_nil in Hp.
  - do 2 eexists. split.
    { apply Forall2_cons; split; [vm_compute; reflexivity|]. apply Forall2_cons; split; [vm_compute; reflexivity|].
      apply Forall2_nil. done. }
    split; vm_compute; reflexivity.
Qed.

(** ** C08 *)
Theorem C08_apply_preserves_heap h file d commit h' b old v :
  apply_h h file d commit = Ret (h', b) -> deref h old = Some v -> deref h' old = Some v.
Proof. exact (apply_preserves h file d commit h' b old v). Qed.
Print Assumptions C08_apply_preserves_heap.
Theorem C08_apply_merge_preserves_heap h ps ds commit h' b old v :
  apply_merge_h h ps ds commit = Ret (h', b) -> deref h old = Some v -> deref h' old = Some v.
Proof. exact (apply_merge_preserves h ps ds commit h' b old v). Qed.
Print Assumptions C08_apply_merge_preserves_heap.
(** ... and so for every history of such calls. *)
Definition call_effect (h h' : heap) : Prop :=
  (exists file d commit b, apply_h h file d commit = Ret (h', b)) \/
  (exists ps ds commit b, apply_merge_h h ps ds commit = Ret (h', b)).
Theorem C08_any_history h h' old v :
  rtc call_effect h h' -> deref h old = Some v -> deref h' old = Some v.
Proof.
  induction 1 as [|h h1 h' [(?&?&?&?&H)|(?&?&?&?&H)] _ IH]; [done|intros Hd; apply IH..].
  - exact (apply_preserves _ _ _ _ _ _ _ _ H Hd).
  - exact (apply_merge_preserves _ _ _ _ _ _ _ _ H Hd).
Qed.
Print Assumptions C08_any_history.
(** The heap versions compute the same blame as the value versions used everywhere else. *)
Theorem C08_heap_apply_refines h file d commit v :
  deref h file = Some v ->
  match apply_h h file d commit with
  | Ret (h', b) => exists v', deref h' b = Some v' /\ apply v d commit = Ret v'
  | Err e => apply v d commit = Err e
  | Panic m => apply v d commit = Panic m
  end.
Proof. exact (apply_h_refines h file d commit v). Qed.
Print Assumptions C08_heap_apply_refines.
Theorem C08_heap_apply_merge_refines h ps ds commit vs :
  Forall2 (fun p v => deref h p = Some v) ps vs ->
  match apply_merge_h h ps ds commit with
  | Ret (h', b) => exists v', deref h' b = Some v' /\ apply_merge vs ds commit = Ret v'
  | Err e => apply_merge vs ds commit = Err e
  | Panic m => apply_merge vs ds commit = Panic m
  end.
Proof. exact (apply_merge_h_refines h ps ds commit vs). Qed.
Print Assumptions C08_heap_apply_merge_refines.

(** Two blames sharing line objects in one heap, one of them changed twice: the hypotheses are met and both keep their value. *)
Example C08_hypotheses_hold :
  let h := Heap [Line (B "a") (B "c1"); Line (B "b") (B "c1")] [[0; 1]; [1; 0]] in
  let old := HBlame (B "c1") 0 false in let other := HBlame (B "c1") 1 false in
  let d := Diff (B "f") (B "f") false [Hunk [HLoc OpDel 1 2; HLoc OpAdd 1 2] (unlines [B " a"; B "-b"; B "+B"])] in
  exists h' b, apply_merge_h h [old; other] [d; Diff (B "f") (B "f") false []] (B "m") = Ret (h', b) /\
    deref h old = Some (Blame (B "c1") [Line (B "a") (B "c1"); Line (B "b") (B "c1")] false) /\
    deref h' old = deref h old /\ deref h' other = deref h other /\
    deref h' b = Some (Blame (B "m") [Line (B "a") (B "c1"); Line (B "B") (B "c1")] false).
Proof. cbn zeta. do 2 eexists. split; [vm_compute; reflexivity|]. split_and!; vm_compute; reflexivity. Qed.

(** ** C09 *)
Theorem C09_eq_characterised a b :
  blame_eq a b = true <-> b_commit a = b_commit b /\ b_lines a = b_lines b.
Proof. exact (blame_eq_iff a b). Qed.
Print Assumptions C09_eq_characterised.
Theorem C09_eq_equivalence :
  (forall a, blame_eq a a = true) /\ (forall a b, blame_eq a b = true -> blame_eq b a = true) /\
  (forall a b c, blame_eq a b = true -> blame_eq b c = true -> blame_eq a c = true).
Proof. exact blame_eq_equiv. Qed.
Print Assumptions C09_eq_equivalence.
(** ... but Eq blames are not interchangeable: Eq ignores IsBinary. *)
Theorem C09_interchangeable_refuted :
  exists a b d c, blame_eq a b = true /\ (exists r, apply a d c = Ret r) /\ (exists m, apply b d c = Panic m).
Proof. exact blame_eq_not_congruence. Qed.
Print Assumptions C09_interchangeable_refuted.
