(** * The flag --profile

    /repo/ripsrc/cmd/cmdutils/profile.go:11-50 (EnableProfiling) and its use in /repo/ripsrc/cmd/cmdcode/cmd.go:44-79 and
    /repo/ripsrc/cmd/cmdbranches/cmd.go:40-72 (Run).  Simplifications: as in Model/Commands.v; the temporary directory for the profile can be made. *)
From Verif.Model Require Import Base GoStrings GitRepos Commands.

(** What happens at the end of a run: something is said (Model/Commands.v), profiling is stopped (profile.go:19: the profile is written),
    the path of the profile is said (profile.go:20-21). *)
Inductive step := Said (m : message) | Stopped | SaidProfile (file : bytes).

(** profile.go:24-49: the cases of the switch. *)
Definition profile_kinds : list bytes := [B "cpu"; B "mem"; B "trace"; B "block"; B "mutex"].
(** profile.go:20: filepath.Join(dir, kind+".pprof") *)
Definition profile_path (dir kind : bytes) : bytes := dir ++ B "/" ++ kind ++ B ".pprof".
(** profile.go:18-22 (onEnd) *)
Definition on_end (dir kind : bytes) : list step := [Stopped; SaidProfile (profile_path dir kind)].

(** cmdcode/cmd.go:44-79; [dir]: the temporary directory, [kind]: the flag.  The hook is deferred (cmd.go:48-51), and os.Exit (errors.go:26) does not run
    what is deferred.  What happened, and the exit status. *)
Definition profiled_run (dir kind : bytes) (t : node) (root : bytes) (head : path -> bytes) (run : path -> nat * option bytes) : outcome (list step * nat) :=
  if decide (kind = []) then let '(ms, status) := command t root head run in Ret (map Said ms, status)
  else if decide (kind ∈ profile_kinds) then
    let '(ms, status) := command t root head run in
    let exited := match s_errors (run_on_dirs t root head run).1 with [] => false | fs => (exit_with_errs fs).2 end in
    Ret (map Said ms ++ (if exited then [] else on_end dir kind), status)
  else Panic (B "unexpected profile: " ++ kind).
