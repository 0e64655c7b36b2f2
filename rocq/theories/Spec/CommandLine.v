(** * What the commands should do *)
From Verif.Model Require Import Base GitRepos Commands.
From Verif.Spec Require Import Text GitLog Discovery.

(** What git rev-parse HEAD prints in a repository with commits (of the usual 40 digits) and in one without. *)
Definition with_commits (out : bytes) : Prop := exists id, commit_id id /\ length id = 40 /\ out = id ++ [NL].
Definition without_commits (out : bytes) : Prop := out = B "HEAD" ++ [NL].

(** What is printed at the end and the exit status, for so many repositories, empty repositories and records, and these errors: two errors or more are all printed,
    and the status is 1; a single one is printed before the rest. *)
Definition ending (repos skipped entries : nat) (errors : list failure) : list message * nat :=
  match errors with
  | _ :: _ :: _ => (map OneOf errors ++ [Failed], 1)
  | _ => (map FailedWith errors ++ (if repos =? 0 then [FailedWith NoRepos] else []) ++ (if skipped =? 0 then [] else [SkippedEmpty skipped]) ++ [Finished repos entries], 0)
  end.
(** The errors for the repositories [ps], in order. *)
Definition errors_of (err : path -> option bytes) (ps : list path) : list failure := concat (map (fun p => match err p with Some e => [RepoError p e] | None => [] end) ps).
