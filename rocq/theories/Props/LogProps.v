(** * Properties C10, C11 (patch log) and C58: reading [git log -p -m] *)
From Verif.Model Require Import Base GoStrings IncBlame LogParser.
From Verif.Spec Require Import Text UnifiedDiff Attribution GitLog.
From Verif.Proofs Require Import TextLemmas ParsePatch ApplyPatch MergeBlame LogParse LogParseMore.
From Coq Require Import Lia.

(** ** C10 *)

(** One record per entry, in order, with id, the parent diffed against and every file's diff text: line by line what git
    printed, up to a trailing carriage return, and exactly that for diffs without trailing carriage returns. *)
Theorem C10_log_recovered es :
  Forall wf_entry es -> short_lines (log_lines es) ->
  exists cs, log_run (render_log es) = (cs, Ret tt) /\
    Forall2 (fun e c =>
      lc_hash c = le_hash e /\ lc_from c = default [] (le_from e) /\
      Forall2 (fun p t => exists ls, t = unlines ls /\ Forall2 cr_trimmed (patch_lines p) ls /\
                          (Forall no_trailing_cr (patch_lines p) -> t = render_patch p))
              (le_patches e) (lc_changes c)) es cs.
Proof. exact (log_recovered es). Qed.
Print Assumptions C10_log_recovered.

(** The diff texts delivered are usable: parsing and applying one gives the names and the attribution of the change. *)
Theorem C10_changes_usable es cs i e c j p t :
  Forall wf_entry es -> short_lines (log_lines es) -> log_run (render_log es) = (cs, Ret tt) ->
  es !! i = Some e -> cs !! i = Some c -> le_patches e !! j = Some p -> lc_changes c !! j = Some t ->
  exists d, parse t = Ret d /\
    d_prev d = name_before (fp_kind p) /\ d_path d = name_after (fp_kind p) /\ d_binary d = is_binary_body (fp_body p) /\
    forall hs tail file commit k,
      fp_body p = FBText hs -> (forall q m, fp_kind p <> FDelete q m) -> 2 <= k -> has_context k 0 true hs ->
      b_binary file = false -> length (b_lines file) = length (old_text (script hs tail)) ->
      exists b, apply file d commit = Ret b /\ b_commit b = commit /\
        attributed cr_trimmed commit (script hs tail) (b_lines file) (b_lines b).
Proof. exact (changes_usable es cs i e c j p t). Qed.
Print Assumptions C10_changes_usable.

Definition ex_log : list log_entry :=
  [LogEntry (B "aa01") None None (B "A <a@x>") [B "first"] 1
     [FPatch (FCreate (B "a b") (B "100644")) (Some (B "0000000..43f9419")) (FBText [SHunk [] [(Add (B "x"), false)] []])];
   LogEntry (B "aa02") None None (B "A <a@x>") [] 0 [];
   LogEntry (B "aa03") (Some (B "aa01")) (Some (B "aa01 aa02")) (B "commit diff") [B "diff --git"; B "commit x"] 1
     [FPatch (FDelete (B "a b") (B "100644")) None (FBText [SHunk [] [(Del (B "x"), true)] []]);
      FPatch (FRename (B "p") (B "q") (B "100%") None) None FBNone]].
Example C10_hypotheses_hold :
  Forall wf_entry ex_log /\ short_lines (log_lines ex_log) /\
  map (fun c => (lc_hash c, lc_from c, length (lc_changes c))) (fst (log_run (render_log ex_log))) =
    [(B "aa01", [], 1); (B "aa02", [], 0); (B "aa03", B "aa01", 2)].
Proof.
  split_and!.
  - repeat constructor; try done; try (by apply const_no_nl).
  - unfold short_lines. repeat constructor.
  - vm_compute. reflexivity.
Qed.

(** ** C11, for the patch log *)
Theorem C11_patch_log_never_truncated d cs :
  log_run d = (cs, Ret tt) -> Forall (fun l => (N.of_nat (length l) < 100000000)%N) (raw_lines d).
Proof. exact (log_run_all_short d cs). Qed.
Print Assumptions C11_patch_log_never_truncated.
(** A log git could print, cut by a line over the limit: the call fails with an error. *)
Theorem C11_patch_log_long_line_is_error es l rest :
  Forall wf_entry es -> short_lines (log_lines es) -> no_nl l -> (100000000 <= N.of_nat (length l))%N ->
  exists cs e, log_run (render_log es ++ l ++ [NL] ++ rest) = (cs, Err e).
Proof. exact (log_run_long_err es l rest). Qed.
Print Assumptions C11_patch_log_long_line_is_error.
Example C11_hypotheses_hold : exists l, no_nl l /\ (100000000 <= N.of_nat (length l))%N.
Proof. exact long_line_exists. Qed.

(** ** C58: the user's git configuration leaks in *)

(** diff.suppressBlankEmpty=true prints an empty context line without its leading blank: the entry is cut there and the
    rest of the diff makes the parser panic. *)
Theorem C58_suppress_blank_empty_refuted :
  exists cs m, log_run (unlines [B "commit aa01"; B "Author: a"; []; B "    s"; []; B "diff --git a/f b/f"; B "--- a/f"; B "+++ b/f";
                        B "@@ -1,3 +1,4 @@"; []; B "+new"; B " a"; B " b"]) = (cs, Panic m).
Proof. eexists _, _. vm_compute. reflexivity. Qed.
Print Assumptions C58_suppress_blank_empty_refuted.
(** log.decorate=short: every decorated commit is taken for a merge entry, whatever the decoration. *)
Theorem C58_decorate_refuted h deco :
  commit_id h -> no_nl deco -> (N.of_nat (length deco) < 1000)%N -> (N.of_nat (length h) < 1000)%N -> 6 <= length deco ->
  exists f, f <> [] /\ log_run (unlines [B "commit " ++ h ++ B " (" ++ deco ++ B ")"; B "Author: a"; []; B "    s"]) = ([LCommit h f []], Ret tt).
Proof. exact (decorated_is_merge h deco). Qed.
Print Assumptions C58_decorate_refuted.
(** diff.noprefix=true: the patch text is rejected with a panic, for every name. *)
Theorem C58_noprefix_refuted : exists m, parse (unlines [B "diff --git src/f src/f"; B "old mode 100644"; B "new mode 100755"]) = Panic m.
Proof. eexists. vm_compute. reflexivity. Qed.
Print Assumptions C58_noprefix_refuted.
