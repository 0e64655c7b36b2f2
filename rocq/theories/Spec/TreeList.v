(** * The files of a commit, as git lists them *)
From Verif.Model Require Import Base GoStrings.
From Verif.Spec Require Import Text UnifiedDiff.

(** [shown n s]: git prints the name [n] as [s], in quotes if it has to. *)
Inductive shown : bytes -> bytes -> Prop :=
| shown_plain n : plain_path n -> shown n n
| shown_quoted n q : ~ plain_path n -> escaped_name q -> shown n (quoted q).
(** The command that lists the paths of all files of a commit (git-ls-tree(1)). *)
Definition tree_command (commit : bytes) : list bytes := [B "ls-tree"; B "--name-only"; B "-r"; commit].
(** What "git ls-tree -r --name-only" prints for a commit with these files. *)
Definition ls_tree (names : list bytes) (out : bytes) : Prop := exists ss, Forall2 shown names ss /\ out = unlines ss.
(** A name that does not start, or end, with white space. *)
Definition no_first_white (n : bytes) : Prop := forall w r, w ∈ white -> n <> w ++ r.
Definition no_last_white (n : bytes) : Prop := forall w r, w ∈ white -> n <> r ++ w.
