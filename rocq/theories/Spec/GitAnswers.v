(** * What git answers about a repository

    The commands are written out here once more, independently of the model, with what git prints for them. *)
From Verif.Model Require Import Base GoStrings IncBlame ParentsGraph Process CommitMeta FileInfo CodeInfo Api.
From Verif.Spec Require Import Text UnifiedDiff Attribution GitLog CommitGraph History Processing Records MetaLog EndToEnd Selection Porcelain.

(** The commits [cs] are printed after their parents. *)
Definition children_last (g : graph) (cs : list bytes) : Prop :=
  forall i j c p, cs !! i = Some c -> cs !! j = Some p -> parent g c p -> j < i.

Section Answers.
(** The repository: its refs, the content of its commits, and what the metadata log says about a commit. *)
Context {T : Type} (R : gitrepo) (H : history) (about : bytes -> meta_entry T).
(** [graph_revs], [revs]: the arguments that select commits, in the log of the graph and in the other two. *)
Context (git : bound -> list bytes -> outcome bytes) (graph_revs revs : list bytes).

(** In whatever context a command runs (nothing is cancelled): *)
Record answers : Prop := Answers {
  an_head : forall x, git x [B "rev-parse"; B "HEAD"] = Ret (g_head R ++ [NL]);
  (** One line for each selected commit, in some order. *)
  an_graph : exists cs, lists_exactly cs (shows R graph_revs) /\
    forall x, git x ([B "log"; B "-m"; B "--reverse"; B "--no-abbrev-commit"; B "--pretty=format:%H@%P"] ++ graph_revs) =
      Ret (render_graph (map (fun c => (c, parents (hi_parents H) c)) cs));
  (** The entries of each selected commit, parents first. *)
  an_patches : forall f, exists cs, lists_exactly cs (shows R revs) /\ children_last (hi_parents H) cs /\
    forall x, git x ([B "-c"; B "core.attributesFile=" ++ f; B "-c"; B "diff.renameLimit=10000"; B "log"; B "-p"; B "-m"; B "--date-order";
        B "--reverse"; B "--no-abbrev-commit"; B "--pretty=short"] ++ revs) =
      Ret (render_log (git_log H cs));
  (** The metadata of each selected commit, in some order. *)
  an_metadata : forall f, exists cs ls, lists_exactly cs (shows R revs) /\ meta_log (map about cs) ls /\
    Forall (fun l => (N.of_nat (length l) < 65536)%N) ls /\
    forall x, git x ([B "-c"; B "core.attributesFile=" ++ f; B "-c"; B "diff.renameLimit=10000"; B "log"; B "-c"; B "--raw"; B "--reverse"; B "--numstat";
        B "--pretty=format:!SHA: %H%n!Parents: %P%n!Committer: %ce%n!CName: %cn%n!Author: %ae%n!AName: %an%n!Date: %aI%n!Message: %s%n"] ++ revs) =
      Ret (unlines ls);
  (** The lines of a file, each with a commit of the history. *)
  an_blame : forall c f e, hi_tree H c !! f = Some e -> exists ls, Forall wf_porcelain ls /\
    map po_text ls = content_lines (en_content e) /\ (forall p, p ∈ ls -> reaches (hi_parents H) c (po_commit p)) /\
    forall x, git x [B "blame"; c; B "--porcelain"; B "--"; f] = Ret (render_porcelain ls) }.
End Answers.

(** The commits a full run is about: those HEAD or, if all branches are wanted, a ref descends from. *)
Definition selected (R : gitrepo) (all : bool) (c : bytes) : Prop :=
  exists x, (x = g_head R \/ (all = true /\ x ∈ g_tips R)) /\ reaches (g_parents R) x c.

(** What is required of a repository: as in C60 (valid history, no merge changes the type of a file, names git does not quote), lines within the
    limits of the scanners. *)
Record usable {T} (k : nat) (parse_date : bytes -> option T) (R : gitrepo) (H : history) (about : bytes -> meta_entry T) : Prop := Usable {
  us_same : hi_parents H = g_parents R;
  us_valid : valid_history k H; us_context : 2 <= k; us_acyclic : acyclic (hi_parents H);
  us_head : is_Some (g_parents R !! g_head R) /\ length (g_head R) = 40;
  us_tips : forall x, x ∈ g_tips R -> is_Some (g_parents R !! x);
  us_merges : forall c, is_Some (hi_parents H !! c) -> plain_merge H c;
  us_about : forall c, is_Some (hi_parents H !! c) -> me_sha (about c) = c /\ MetaLog.wf_meta parse_date (about c) /\ entry_matches H (about c);
  us_graph_lines : forall c, is_Some (hi_parents H !! c) -> (N.of_nat (length (graph_line (c, parents (hi_parents H) c))) < 1000000)%N;
  us_log_lines : forall c, is_Some (hi_parents H !! c) -> UnifiedDiff.short_lines (log_lines (entries_of H c)) }.
