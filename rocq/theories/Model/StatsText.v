(** * The text of the statistics (/repo/ripsrc/history3/process/process.go:323-336, code_info.go:104-108, cmd/cmdcode/cmd.go:138-143)

    Simplifications: how time.Duration is written ([%v], Duration.String of package time) is a function [dur_text]; writing does not fail (the code ignores
    the errors of Fprintln). *)
From Coq Require DecimalString Decimal.
From Verif.Model Require Import Base GoStrings Timing Stats.

(** fmt: an int printed with [%v]; the counts are never negative. *)
Definition int_text (n : nat) : bytes := list_ascii_of_string (DecimalString.NilEmpty.string_of_uint (N.to_uint (N.of_nat n))).
(** fmt.Fprintln of operands already turned into text: a space between them, a newline after. *)
Definition println (l : list bytes) : bytes := join [SP] l ++ [NL].

Section Text.
Context (dur_text : Z -> bytes).
(** process.go:323-336 (Timing.OutputStats); the two Fprintf have a space between their parts, too. *)
Definition output_git_stats (t : timing) : bytes :=
  println [B "git processor timing"] ++
  println [B "regular commits"; int_text (tm_regular t)] ++
  println [B "time in regular commits"; dur_text (tm_regular_time t)] ++
  println [B "merges"; int_text (tm_merges t)] ++
  println [B "time in merges commits"; dur_text (tm_merges_time t)] ++
  println [B "time in"; int_text (length (tm_slowest t)); B "slowest commits"; dur_text (slowest_dur (tm_slowest t))] ++
  println [B "slowest commits"] ++
  concat (map (fun c => println [t_commit c; dur_text (t_dur c)]) (tm_slowest t)).
(** code_info.go:104-108 (CodeInfoTimings.OutputStats) *)
Definition output_files_stats (f : files_timing) : bytes :=
  println [B "code info timing"] ++ println [B "files processed"; int_text (ft_count f)] ++ println [B "total time"; dur_text (ft_time f)].
(** cmd/cmdcode/cmd.go:131-143: what the command writes after CodeByCommit, if that did not fail. *)
Definition output_stats (oc : outcome unit) (s : shown) : bytes :=
  match oc with
  | Ret _ => println [] ++ output_git_stats (sh_git s) ++ println [] ++ output_files_stats (sh_files s) ++ println []
  | _ => []
  end.
End Text.
