(** * Files of a commit

    Models /repo/ripsrc/history3/process/gitblamecommit/gitblamecommit.go:12-52 (Blame, listOfFiles).  The package is exported; nothing in the
    repository uses it, and the rest of the file is commented out. *)
From Verif.Model Require Import Base GoStrings IncBlame CommitMeta.

(** The arguments of git (gitblamecommit.go:34-39). *)
Definition ls_tree_args (commit : bytes) : list bytes := [B "ls-tree"; B "--name-only"; B "-r"; commit].
(** listOfFiles (gitblamecommit.go:33-52): an error of git is a panic. *)
Definition list_of_files (out : outcome bytes) : outcome (list bytes) :=
  match out with
  | Ret b => Ret (split_char NL (trim_space b))
  | Err e | Panic e => Panic e
  end.
(** Blame (gitblamecommit.go:17-31); [git]: what a command prints. *)
Definition blame_commit (git : list bytes -> outcome bytes) (commit : bytes) : outcome (gmap bytes blame) :=
  match list_of_files (git (ls_tree_args commit)) with
  | Ret files => Ret (fold_left (fun m p => <[p := Blame [] [] true]> m) files ∅)
  | Err e => Err e
  | Panic e => Panic e
  end.
