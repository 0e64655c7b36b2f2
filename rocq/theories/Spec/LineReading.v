(** * Reading back a printed line *)
From Verif.Model Require Import Base CommitMeta CodeInfo Commands CodeCommand.
From Verif.Spec Require Import Text.

Section Line.
Context {L : Type} (license_text : L -> bytes).
Definition license_shown (l : rline L) : bytes := match ln_license l with Some x => license_text x | None => [] end.
(** Nothing in the line contains what follows it in the line. *)
Definition unmistakable (l : rline L) : Prop :=
  ~ occurs (B "][") (ln_repo l) /\ ~ occurs (B "][") (ln_sha l) /\ ~ occurs (B " language=") (ln_file l) /\ ~ occurs (B ",license=") (ln_language l) /\
  ~ occurs (B ",loc=") (license_shown l) /\ ~ occurs (B ",status=") (ln_skipped l).
(** Nothing in the line has a newline. *)
Definition in_one_line (l : rline L) : Prop :=
  no_nl (ln_repo l) /\ no_nl (ln_sha l) /\ no_nl (ln_file l) /\ no_nl (ln_language l) /\ no_nl (license_shown l) /\ no_nl (ln_skipped l) /\ no_nl (ln_author l).
(** The same in both lines. *)
Definition same_shown (l l' : rline L) : Prop :=
  ln_repo l = ln_repo l' /\ ln_sha l = ln_sha l' /\ ln_file l = ln_file l' /\ ln_language l = ln_language l' /\ license_shown l = license_shown l' /\
  ln_numbers l = ln_numbers l' /\ ln_skipped l = ln_skipped l' /\ ln_status l = ln_status l' /\ ln_author l = ln_author l'.
End Line.

(** A whole number in decimal. *)
Definition decimal (z : Z) : bytes := match z with Zneg p => B "-" ++ show (Npos p) | _ => show (Z.to_N z) end.
(** The line for a record: repository, the first eight digits of the commit's id, minutes, file, then the values by name; the blank lines are not the
    record's, but its comments (see C66). *)
Definition line_for {T L} (license_text : L -> bytes) (dir : bytes) (minutes : N) (r : bresult T L) (text : bytes) : Prop :=
  exists id rest f, mc_sha (br_commit r) = id ++ rest /\ length id = 8 /\ mc_files (br_commit r) !! br_filename r = Some f /\
  text = B "[" ++ dir ++ B "][" ++ id ++ B "][" ++ show minutes ++ B "m] " ++ br_filename r ++ B " language=" ++ br_language r ++
    B ",license=" ++ match br_license r with Some x => license_text x | None => [] end ++
    B ",loc=" ++ decimal (t_lines (br_totals r)) ++ B ",sloc=" ++ decimal (t_code (br_totals r)) ++ B ",comments=" ++ decimal (t_comment (br_totals r)) ++
    B ",blanks=" ++ decimal (t_comment (br_totals r)) ++ B ",complexity=" ++ decimal (t_complexity (br_totals r)) ++
    B ",skipped=" ++ br_skipped r ++ B ",status=" ++ match cf_status f with Added => B "added" | Modified => B "modified" | Removed => B "removed" end ++
    B ",author=" ++ match mc_author_name (br_commit r) with [] => mc_author_email (br_commit r) | n => n end ++ [NL].
