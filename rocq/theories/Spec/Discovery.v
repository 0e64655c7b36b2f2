(** * Which repositories are in a directory *)
From Verif.Model Require Import Base GoSort GitRepos.

(** What is at a path below [t], following no links. *)
Fixpoint node_at (t : node) (p : path) : option node :=
  match p with
  | [] => Some t
  | n :: p => match t with Dir _ _ es => match entry_of n es with Some s => node_at s p | None => None end | _ => None end
  end.
Definition is_dir (t : node) : Prop := exists s r es, t = Dir s r es.
Definition has_dir (t : node) (n : bytes) : Prop := exists s, node_at t [n] = Some s /\ (is_dir s \/ s = Link TDir).
(** A working tree: it has a directory ".git".  A bare repository: a name that ends in ".git", a directory "objects" in it. *)
Definition work_tree (t : node) : Prop := has_dir t (B ".git").
Definition bare_repo (name : bytes) (t : node) : Prop := (exists x, name = x ++ B ".git") /\ has_dir t (B "objects").
Definition name_of (root : bytes) (p : path) : bytes := default root (last p).

(** A repository at most [max] levels down (any number if negative) and not inside a working tree. *)
Definition repo_within (t : node) (root : bytes) (max : Z) (p : path) : Prop :=
  exists d, node_at t p = Some d /\ is_dir d /\ (max < 0 \/ Z.of_nat (length p) <= max)%Z /\
    (work_tree d \/ bare_repo (name_of root p) d) /\
    forall q r, p = q ++ r -> r <> [] -> forall s, node_at t q = Some s -> ~ work_tree s.

(** Nothing on the disk refuses access. *)
Definition accessible (t : node) : Prop :=
  forall p s, node_at t p = Some s -> match s with Dir search read _ => search = true /\ read = true | Link TLoop => False | _ => True end.
(** Entries are in the order of their names, each name once. *)
Definition name_lt (a b : bytes) : Prop := bytes_le a b /\ a <> b.
Definition listed_in_order (t : node) : Prop :=
  forall p s r es, node_at t p = Some (Dir s r es) -> forall i j a b, i < j -> es !! i = Some a -> es !! j = Some b -> name_lt a.1 b.1.
(** A directory before what is in it, otherwise by the first name that differs. *)
Definition path_lt (p q : path) : Prop :=
  (exists r, r <> [] /\ q = p ++ r) \/ (exists c a b p' q', p = c ++ a :: p' /\ q = c ++ b :: q' /\ name_lt a b).
