(** * The text of the line printed for a record (/repo/ripsrc/cmd/cmdcode/cmd.go:114-119)

    Model/CodeCommand.v says what is in the line; here it is written.
    Simplifications: the output is not a terminal (no colours); the text of a license (its name and rounded confidence, line 116) is a function. *)
From Coq Require DecimalString Decimal.
From Verif.Model Require Import Base GoStrings CommitMeta CodeInfo Commands CodeCommand.

(** fmt: an integer printed with [%v]. *)
Definition number_text (z : Z) : bytes :=
  (if (z <? 0)%Z then B "-" else []) ++ list_ascii_of_string (DecimalString.NilEmpty.string_of_uint (N.to_uint (Z.abs_N z))).
(** /repo/ripsrc/commitmeta/commitmeta.go:93-106 *)
Definition status_text (s : cstatus) : bytes := match s with Added => B "added" | Modified => B "modified" | Removed => B "removed" end.

Section Line.
Context {L : Type} (license_text : L -> bytes).
(** cmd.go:114-119; [minutes]: timeSinceStartMin *)
Definition line_text (minutes : N) (l : rline L) : bytes :=
  B "[" ++ ln_repo l ++ B "][" ++ ln_sha l ++ B "][" ++ number_text (Z.of_N minutes) ++ B "m] " ++ ln_file l ++ B " language=" ++ ln_language l ++
  B ",license=" ++ match ln_license l with Some x => license_text x | None => [] end ++
  concat (map (fun x : bytes * Z => B "," ++ x.1 ++ B "=" ++ number_text x.2) (ln_numbers l)) ++
  B ",skipped=" ++ ln_skipped l ++ B ",status=" ++ status_text (ln_status l) ++ B ",author=" ++ ln_author l ++ [NL].
End Line.
