(** * C94: the flag --profile *)
From Verif.Model Require Import Base GoStrings GitRepos Commands Profile.
From Verif.Spec Require Import CommandLine Profiling.
From Coq Require Import Lia.

Section C94.
(** The temporary directory; the tree, its name, what rev-parse prints and what the work on a repository gives (as in C64). *)
Context (dir : bytes) (t : node) (root : bytes) (head : path -> bytes) (run : path -> nat * option bytes).
Let errors := s_errors (run_on_dirs t root head run).1.

(** Without the flag nothing but the command happens. *)
Theorem C94_no_profile : profiled_run dir [] t root head run = Ret (map Said (command t root head run).1, (command t root head run).2).
Proof. unfold profiled_run. rewrite decide_True by done. by destruct (command t root head run). Qed.

Lemma not_stopped ms : Stopped ∉ map Said ms.
Proof. induction ms as [|m ms IH]; cbn [map]; [apply not_elem_of_nil|]. apply not_elem_of_cons. by split. Qed.

(** With a kind other than trace, and at most one repository that fails: the command says what it says without the flag, then the profile is complete
    and its path is said. *)
Theorem C94_profile_partial kind : kind ∈ documented_kinds -> kind <> B "trace" -> length errors <= 1 ->
  profiled_run dir kind t root head run = Ret (profiled (command t root head run).1 (written_file dir kind), 0).
Proof.
  intros Hk Ht He. unfold profiled_run. rewrite decide_False by (intros ->; clear -Hk; repeat (apply elem_of_cons in Hk as [Hk|Hk]; [discriminate|]); by apply elem_of_nil in Hk).
  rewrite decide_True by (clear -Hk; repeat (apply elem_of_cons in Hk as [->|Hk]; [apply (bool_decide_unpack _); vm_compute; exact I|]); by apply elem_of_nil in Hk).
  unfold profiled, written_file. rewrite (decide_False (P := kind = B "trace")) by exact Ht. subst errors. unfold command in *. destruct (run_on_dirs t root head run) as [s e]. cbn [fst] in *.
  destruct (s_errors s) as [|f [|f' fs]]; [reflexivity|reflexivity|cbn in He; lia].
Qed.
(** A trace is complete, too, but the path said is not that of its file. *)
Theorem C94_trace_refuted : length errors <= 1 -> exists path, path <> written_file dir (B "trace") /\
  profiled_run dir (B "trace") t root head run = Ret (profiled (command t root head run).1 path, 0).
Proof.
  intros He. exists (profile_path dir (B "trace")). split; [intros K%(app_inv_head dir); discriminate|]. unfold profiled_run. rewrite decide_False by discriminate.
  rewrite decide_True by (apply (bool_decide_unpack _); vm_compute; exact I). unfold profiled. subst errors. unfold command in *. destruct (run_on_dirs t root head run) as [s e]. cbn [fst] in *.
  destruct (s_errors s) as [|f [|f' fs]]; [reflexivity|reflexivity|cbn in He; lia].
Qed.
(** With two failing repositories or more the program exits without completing the profile. *)
Theorem C94_complete_refuted kind : kind ∈ documented_kinds -> 2 <= length errors ->
  profiled_run dir kind t root head run = Ret (map Said (command t root head run).1, 1) /\ Stopped ∉ map Said (command t root head run).1.
Proof.
  intros Hk He. split; [|apply not_stopped]. unfold profiled_run. rewrite decide_False by (intros ->; clear -Hk; repeat (apply elem_of_cons in Hk as [Hk|Hk]; [discriminate|]); by apply elem_of_nil in Hk).
  rewrite decide_True by (clear -Hk; repeat (apply elem_of_cons in Hk as [->|Hk]; [apply (bool_decide_unpack _); vm_compute; exact I|]); by apply elem_of_nil in Hk).
  subst errors. unfold command in *. destruct (run_on_dirs t root head run) as [s e]. cbn [fst] in *. destruct (s_errors s) as [|f [|f' fs]]; [cbn in He; lia..|]. cbn [exit_with_errs snd fst]. by rewrite app_nil_r.
Qed.
(** Another kind ends the program before anything is worked on or said. *)
Theorem C94_other_kind kind : kind <> [] -> kind ∉ documented_kinds -> profiled_run dir kind t root head run = Panic (B "unexpected profile: " ++ kind).
Proof.
  intros H1 H2. unfold profiled_run. rewrite decide_False by exact H1. rewrite decide_False; [done|]. intros Hk. apply H2.
  repeat (apply elem_of_cons in Hk as [->|Hk]; [apply (bool_decide_unpack _); vm_compute; exact I|]); by apply elem_of_nil in Hk.
Qed.
End C94.
Print Assumptions C94_no_profile.
Print Assumptions C94_profile_partial.
Print Assumptions C94_trace_refuted.
Print Assumptions C94_complete_refuted.
Print Assumptions C94_other_kind.

(** The command of C64's example (one of two repositories fails, the other has no commits), and one where both fail. *)
From Verif.Props Require Import GitReposProps CommandProps.
Example C94_hypotheses_hold :
  profiled_run (B "/tmp/p") (B "cpu") ex_src (B "src") ex_head ex_run =
    Ret (profiled [FailedWith (RepoError [B "app"] (B "no such commit")); SkippedEmpty 1; Finished 2 7] (B "/tmp/p/cpu.pprof"), 0) /\
  length (s_errors (run_on_dirs ex_src (B "src") ex_head ex_run).1) = 1 /\
  length (s_errors (run_on_dirs ex_src (B "src") (fun _ => ex_id ++ [NL]) ex_run).1) = 2 /\
  profiled_run (B "/tmp/p") (B "mem") ex_src (B "src") (fun _ => ex_id ++ [NL]) ex_run =
    Ret ([Said (OneOf (RepoError [B "app"] (B "no such commit"))); Said (OneOf (RepoError [B "lib.git"] (B "no such commit"))); Said Failed], 1).
Proof. vm_compute. split; [reflexivity|]. split; [reflexivity|]. split; reflexivity. Qed.
