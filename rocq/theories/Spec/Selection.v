(** * Which commits git log shows (gitrevisions(7))

    The part of git's notation that is used: no argument (HEAD), "--all", a revision, "a..b"; a revision is a name with any number of "^"
    behind it, each one step to the first parent. *)
From Verif.Model Require Import Base GoStrings ParentsGraph.
From Verif.Spec Require Import Text CommitGraph.

(** A repository: the parents of its commits, what its refs (branches, tags, ...) point to, the commit of HEAD, and the commit of every other name. *)
Record gitrepo := GitRepo { g_parents : graph; g_tips : list bytes; g_head : bytes; g_name : bytes -> option bytes }.

Definition no_dots (s : bytes) : Prop := forall u v, s <> u ++ B ".." ++ v.
(** What git allows as the name of a ref, as far as it matters here (git-check-ref-format). *)
Definition simple_name (n : bytes) : Prop := n <> [] /\ "^"%char ∉ n /\ no_dots n /\ (forall u, n <> u ++ B ".") /\ n <> B "--all".

Section Selection.
Context (R : gitrepo).
Definition named (n : bytes) : option bytes := if decide (n = B "HEAD") then Some (g_head R) else g_name R n.
Inductive revision : bytes -> bytes -> Prop :=
| rev_name n c : simple_name n -> named n = Some c -> revision n c
| rev_first n c p ps : revision n c -> g_parents R !! c = Some (p :: ps) -> revision (n ++ B "^") p.
(** An argument: the commits to start from, and the commits that are left out together with their ancestors. *)
Inductive arg : bytes -> list bytes -> list bytes -> Prop :=
| arg_all : arg (B "--all") (g_head R :: g_tips R) []
| arg_rev a x : no_dots a -> revision a x -> arg a [x] []
| arg_range a b x y : no_dots a -> no_dots b -> revision a x -> revision b y -> arg (a ++ B ".." ++ b) [y] [x].
Inductive args_mean : list bytes -> list bytes -> list bytes -> Prop :=
| args_nil : args_mean [] [] []
| args_cons a l pos neg pos' neg' : arg a pos neg -> args_mean l pos' neg' -> args_mean (a :: l) (pos ++ pos') (neg ++ neg').

(** git log with these arguments shows [c]. *)
Definition shows (l : list bytes) (c : bytes) : Prop :=
  exists pos neg, args_mean (if decide (l = []) then [B "HEAD"] else l) pos neg /\
    (exists x, x ∈ pos /\ reaches (g_parents R) x c) /\ forall x, x ∈ neg -> ~ reaches (g_parents R) x c.
(** It is an error: an argument means nothing. *)
Definition is_error (l : list bytes) : Prop := forall pos neg, ~ args_mean (if decide (l = []) then [B "HEAD"] else l) pos neg.
End Selection.
