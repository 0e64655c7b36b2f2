(** * The commands: proofs for C64-C66 *)
From Verif.Model Require Import Base GoStrings GoSort GitRepos Commands.
From Verif.Spec Require Import Text Refs Discovery CommandLine.
From Verif.Proofs Require Import BranchMetaProofs GitReposProofs.
From Coq Require Import Lia.

Section commands.
  Context (t : node) (root : bytes) (head : path -> bytes) (run : path -> nat * option bytes).
  Notation with_b := (has_head_commit head).
  Definition failed_in (p : path) : list failure := match (run p).2 with Some e => [RepoError p e] | None => [] end.
  Lemma fold_on_dir ps s : fold_left (on_dir head run) ps s =
    Stats (s_repos s + length ps) (s_skipped s + length (filter (fun p => with_b p = false) ps))
      (s_entries s + sum_list (map (fun p => (run p).1) (filter (fun p => with_b p = true) ps)))
      (s_errors s ++ concat (map failed_in (filter (fun p => with_b p = true) ps))) (s_done s ++ ps).
  Proof.
    revert s. induction ps as [|p ps IH]; intros s; [cbn; rewrite !Nat.add_0_r, !app_nil_r; by destruct s|].
    cbn [fold_left]. rewrite IH. clear IH. unfold on_dir, run_on_repo. rewrite !filter_cons. destruct (has_head_commit head p) eqn:E.
    - rewrite !(decide_True (P := true = true)), (decide_False (P := true = false)) by done. cbn [map concat]. unfold failed_in at 2.
      destruct (run p) as [n [e|]] eqn:Er; cbn [s_repos s_skipped s_entries s_errors s_done fst snd app].
      + f_equal; [cbn [length]; lia| |by rewrite <- app_assoc|by rewrite <- app_assoc]. change (sum_list (n :: ?l)) with (n + sum_list l). lia.
      + f_equal; [cbn [length]; lia| |by rewrite <- app_assoc]. change (sum_list (n :: ?l)) with (n + sum_list l). lia.
    - rewrite !(decide_False (P := false = true)), (decide_True (P := false = false)) by done. cbn [s_repos s_skipped s_entries s_errors s_done].
      f_equal; [cbn [length]; lia|cbn [length]; lia| |by rewrite <- app_assoc]. lia.
  Qed.
End commands.
