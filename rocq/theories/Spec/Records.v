(** * What records should say

    Vocabulary for C47-C52, independent of how the code computes it. *)
From Verif.Model Require Import Base GoStrings IncBlame CommitMeta FileInfo CodeInfo GenIgnore.
From Verif.Spec Require Import Text Regex.

(** Texts by which generated files announce themselves. *)
Definition markers : list bytes := [B "GENERATED"; B "DO NOT EDIT"; B "DO NOT MODIFY"; B "machine generated"].
Definition has_marker (s : bytes) : Prop := exists m, m ∈ markers /\ occurs m s.

(** The counter reported line number [n] (starting with 1) as being of type [t]. *)
Definition reported (calls : list (Z * line_type)) (n : nat) (t : line_type) : Prop := (Z.of_nat n, t) ∈ calls.

(** A line of a record for the blame line [x]: its commit and that commit's author. *)
Definition line_of {T} (meta : bytes -> option (mcommit T)) (x : line) (l : bline T) : Prop :=
  bl_sha l = l_commit x /\
  exists c, meta (l_commit x) = Some c /\ bl_name l = mc_author_name c /\ bl_email l = mc_author_email c /\ bl_date l = mc_date c.

(** ** Limits for source files, in order of precedence, with the reason given when one is violated *)
Section Limits.
Context {L : Type} (cl : classifiers L) (p content : bytes) (lines : list bytes).

Definition is_license : Prop := matched_by license_source p /\ exists l, cl_license cl p content = Ret (Some l).
Inductive violated : nat -> bytes -> Prop :=
| v_size : (1000000 < N.of_nat (length content))%N ->
    violated 0 (B "File size was " ++ show (N.of_nat (length content) / 1000) ++ B "K which exceeds limit of 1000K")
| v_license : is_license -> violated 1 (B "File is a license file")
| v_config : cl_config cl p = true -> violated 2 (B "File was a config file")
| v_dot : cl_dot cl p = true -> violated 3 (B "File was a dot file")
| v_ignored : matched_by ignore_source p -> violated 4 (B "File was on an exclusion list")
| v_vendored : cl_vendor cl p = true -> (forall r, p <> B "src/" ++ r) -> violated 5 (B "File was a vendored file")
| v_lines : (40000 < N.of_nat (length lines))%N -> violated 6 (B "File has more than 40000 lines")
| v_width i l : lines !! i = Some l -> (1096 < N.of_nat (length l))%N ->
    (forall j l', j < i -> lines !! j = Some l' -> (N.of_nat (length l') <= 1096)%N) ->
    violated 7 (B "File has a line width of " ++ show (N.of_nat (length l)) ++ B " which is greater than max of 1096")
| v_language : cl_language cl p content = [] -> violated 8 (B "Language was unknown").

(** The reason of the first violated limit. *)
Definition first_violated (r : bytes) : Prop :=
  exists k, violated k r /\ forall j r', j < k -> ~ violated j r'.
Definition none_violated : Prop := forall k r, ~ violated k r.
End Limits.

(** ** Calls of the classifier before the current one *)

(** A cache that some sequence of earlier classifications left behind. *)
Inductive used_cache {L} (cl : classifiers L) : gmap bytes bytes -> Prop :=
| used_new : used_cache cl ∅
| used_more cache p content lines i cache' :
    used_cache cl cache -> get_info cl cache p content lines = Ret (i, cache') -> used_cache cl cache'.

(** The license detector does not fail. *)
Definition detector_works {L} (cl : classifiers L) : Prop := forall p content, exists l, cl_license cl p content = Ret l.

(** ** Records of a commit *)

(** The text of a file: its lines, each ended by a newline. *)
Definition text_of (b : blame) : bytes := concat (map (fun l => l_data l ++ [NL]) (b_lines b)).

(** The reports of the line counter for a file. *)
Definition calls_for {L} (cl : classifiers L) (count : bytes -> bytes -> bytes -> list (Z * line_type) * totals) (p : bytes) (b : blame) : list (Z * line_type) :=
  (count p (cl_language cl p (text_of b)) (text_of b)).1.

(** The flags of line number [n] are those reported for it. *)
Definition flags_right {T} (calls : list (Z * line_type)) (n : nat) (l : bline T) : Prop :=
  (bl_comment l = true <-> reported calls n LComment) /\
  (bl_code l = true <-> reported calls n LCode) /\
  (bl_blank l = true <-> reported calls n LBlank).

(** A comment line has a marker. *)
Definition says_generated (calls : list (Z * line_type)) (b : blame) : Prop :=
  exists i l, b_lines b !! i = Some l /\ reported calls (S i) LComment /\ has_marker (l_data l).
