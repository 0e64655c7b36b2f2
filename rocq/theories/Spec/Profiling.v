(** * What --profile promises *)
From Verif.Model Require Import Base GitRepos Commands Profile.

(** The flag's values, by its help text: "one of mem, mutex, cpu, block, trace or empty to disable". *)
Definition documented_kinds : list bytes := [B "mem"; B "mutex"; B "cpu"; B "block"; B "trace"].
(** The file the package profile writes into its directory (its documentation: a trace is written to trace.out). *)
Definition written_file (dir kind : bytes) : bytes := dir ++ B "/" ++ (if decide (kind = B "trace") then B "trace.out" else kind ++ B ".pprof").
(** Everything the command says, then the profile is completed and the path of its file is said. *)
Definition profiled (messages : list message) (file : bytes) : list step := map Said messages ++ [Stopped; SaidProfile file].
