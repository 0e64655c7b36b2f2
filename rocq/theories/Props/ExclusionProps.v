(** * Which files are excluded by name (C74, C75) *)
From Verif.Model Require Import Base GoStrings FileInfo CodeInfo GenIgnore.
From Verif.Spec Require Import Text Regex Exclusion.
From Verif.Proofs Require Import TextLemmas TrimProofs RegexProofs GenIgnoreProofs.

(** ** C74: the tests on names and comments are the regular expressions in the code *)

(** For every path: it is on the exclusion list exactly if the expression of gitignore.go matches it. *)
Theorem C74_excluded p : ignored p = true <-> matched_by ignore_source p.
Proof. exact (ignored_iff p). Qed.
Print Assumptions C74_excluded.
(** For every path: the file is looked at as a licence exactly if the expression of license.go matches it. *)
Theorem C74_license_names p : possible_license p = true <-> matched_by license_source p.
Proof. exact (license_iff p). Qed.
Print Assumptions C74_license_names.
(** For every comment line: it announces a generated file exactly if the expression of code_info.go matches it. *)
Theorem C74_generated_markers s : generated_re s = true <-> matched_by generated_source s.
Proof. exact (generated_iff s). Qed.
Print Assumptions C74_generated_markers.

(** Both outcomes happen; the names of documents match inside other names, and .pdf files are not matched. *)
Example C74_hypotheses_hold :
  matched_by ignore_source (B "a/package.json") /\ ~ matched_by ignore_source (B "a/package.js") /\
  matched_by ignore_source (B "src/DCOM.cs") /\ ~ matched_by ignore_source (B "a.pdf") /\ matched_by ignore_source (B "a.Ppdf") /\
  matched_by license_source (B "x/LICENSE-MIT.html") /\ ~ matched_by license_source (B "LICENSE.html") /\
  matched_by generated_source (B "// Code GENERATED") /\ ~ matched_by generated_source (B "// Code generated").
Proof.
  rewrite <- !C74_excluded, <- !C74_license_names, <- !C74_generated_markers.
  split; [vm_compute; reflexivity|]. split; [vm_compute; discriminate|]. split; [vm_compute; reflexivity|]. split; [vm_compute; discriminate|].
  split; [vm_compute; reflexivity|]. split; [vm_compute; reflexivity|]. split; [vm_compute; discriminate|]. split; [vm_compute; reflexivity|]. vm_compute; discriminate.
Qed.

(** ** C75: every pattern in the file of patterns excludes the paths it matches *)

(** The full property: a path is excluded exactly if a pattern of one of the lines of the file matches it. *)
Definition C75_full (text : bytes) : Prop :=
  forall p, ignored p = true <-> exists l, a_line text l /\ pattern_line l /\ matched_by (escaped l) p.

(** The generator, for every file with at least one pattern: the patterns of the lines that end in a newline, and no others. *)
Theorem C75_generator text : parse_file text <> [] -> Forall readable (parse_file text) ->
  forall p, matched_by (generate text) p <-> exists l e, ended_line text l /\ pattern_of l = Some e /\ matched_by e p.
Proof.
  intros Hn Hr p. rewrite (generate_ok text Hn Hr p). split.
  - intros (e & He & Hm). apply parse_file_iff in He as (l & Hl & Hp). exists l, e. auto.
  - intros (l & e & Hl & Hp & Hm). exists e. split; [|exact Hm]. apply parse_file_iff. exists l. auto.
Qed.
Print Assumptions C75_generator.
(** The pattern of a line. *)
Theorem C75_pattern l : pattern_line l -> pattern_of l = Some (escaped l).
Proof. exact (pattern_of_line l). Qed.
Print Assumptions C75_pattern.
(** A file without patterns: the expression matches every path, so that every file would be excluded. *)
Theorem C75_no_patterns_refuted text : parse_file text = [] -> forall p, matched_by (generate text) p.
Proof.
  intros Hn p. unfold generate. rewrite Hn. exists (RSeq REps REps). split; [vm_compute; reflexivity|]. exists 0, 0.
  apply (m_seq _ _ _ _ 0); apply m_eps; lia.
Qed.
Print Assumptions C75_no_patterns_refuted.
(** The list in the code is the generator's for the file in the repository. *)
Theorem C75_list_is_generated : ignore_source = generate custom_patterns.
Proof. symmetry. exact generated_list. Qed.
Print Assumptions C75_list_is_generated.
(** So a path is excluded exactly if a pattern of a line that ends in a newline matches it. *)
Theorem C75_listed_partial p :
  ignored p = true <-> exists l, ended_line custom_patterns l /\ pattern_line l /\ matched_by (escaped l) p.
Proof. rewrite (ignored_iff p). exact (custom_listed p). Qed.
Print Assumptions C75_listed_partial.
(** The last line of the file has no newline: its pattern excludes nothing. *)
Theorem C75_last_line_refuted :
  unended_line custom_patterns (B ".parquet$") /\ pattern_line (B ".parquet$") /\
  matched_by (escaped (B ".parquet$")) (B "data.parquet") /\ ignored (B "data.parquet") = false /\ ~ C75_full custom_patterns.
Proof.
  assert (H1 : unended_line custom_patterns (B ".parquet$")).
  { exists (take (length custom_patterns - 9) custom_patterns). split; [vm_compute; reflexivity|].
    split; [right; exists (take (length custom_patterns - 10) custom_patterns); vm_compute; reflexivity|]. 
    split; [apply (bool_decide_unpack _); vm_compute; exact I|discriminate]. }
  assert (H2 : pattern_line (B ".parquet$")).
  { split; [apply (bool_decide_unpack _); vm_compute; exact I|]. split.
    - intros c Hc. unfold odd_char. revert c Hc. apply Forall_forall. apply (bool_decide_unpack _). vm_compute. exact I.
    - split; [apply bare_solid; repeat (apply Forall_cons; split; [reflexivity|]); by apply Forall_nil|].
      exists "."%char, (B "parquet$"). split; [reflexivity|discriminate]. }
  assert (H3 : matched_by (escaped (B ".parquet$")) (B "data.parquet")).
  { apply (patterns_of_ok _ _ [(false, B ".parquet", true)]); vm_compute; reflexivity. }
  assert (H4 : ignored (B "data.parquet") = false) by (vm_compute; reflexivity).
  split; [exact H1|]. split; [exact H2|]. split; [exact H3|]. split; [exact H4|]. intros H.
  assert (ignored (B "data.parquet") = true) as E; [|rewrite H4 in E; discriminate E].
  apply H. exists (B ".parquet$"). split; [right; exact H1|]. auto.
Qed.
Print Assumptions C75_last_line_refuted.

(** The hypotheses of C75_generator hold for a file with a comment, an empty line and two patterns. *)
Definition ex_file : bytes := B "# go" ++ [NL; NL] ++ B "vendor/" ++ [NL] ++ B "(^|/)go.mod$" ++ [NL].
Example C75_hypotheses_hold :
  parse_file ex_file = [B "vendor/"; B "(^|/)go\.mod$"] /\ Forall readable (parse_file ex_file) /\
  matched_by (generate ex_file) (B "x/go.mod") /\ ~ matched_by (generate ex_file) (B "xgo.mod") /\ pattern_line (B "vendor/").
Proof.
  assert (Hp : parse_file ex_file = [B "vendor/"; B "(^|/)go\.mod$"]) by (vm_compute; reflexivity).
  split; [exact Hp|]. split; [rewrite Hp; constructor; [eexists; vm_compute; reflexivity|constructor; [eexists; vm_compute; reflexivity|constructor]]|].
  assert (Hq : patterns_of (generate ex_file) = Some [(false, B "vendor/", false); (true, B "go.mod", true); (false, B "/go.mod", true)]) by (vm_compute; reflexivity).
  split; [apply (patterns_of_ok _ _ _ Hq); vm_compute; reflexivity|]. split; [rewrite (patterns_of_ok _ _ _ Hq); vm_compute; discriminate|].
  split; [apply (bool_decide_unpack _); vm_compute; exact I|]. split.
  - intros c Hc. unfold odd_char. revert c Hc. apply Forall_forall. apply (bool_decide_unpack _). vm_compute. exact I.
  - split; [apply bare_solid; repeat (apply Forall_cons; split; [reflexivity|]); by apply Forall_nil|]. exists "v"%char, (B "endor/"). split; [reflexivity|discriminate].
Qed.
