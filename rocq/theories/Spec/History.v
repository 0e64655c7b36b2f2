(** * Histories of file trees, the log git prints for them, and the blame that follows from it

    Independent of the model of processing (only the types [blame], [line] are shared). *)
From Verif.Model Require Import Base IncBlame ParentsGraph.
From Verif.Spec Require Import Text UnifiedDiff Attribution GitLog CommitGraph.

(** ** Trees *)
Inductive content := CText (ls : list bytes) | CBinary (blob : bytes).
Record entry := Entry { en_mode : bytes; en_content : content }.
#[global] Instance content_eq_dec : EqDecision content. Proof. solve_decision. Defined.
#[global] Instance entry_eq_dec : EqDecision entry. Proof. solve_decision. Defined.
Notation tree := (gmap bytes entry).

(** The lines [git blame] numbers: of a text its lines, of any other blob its pieces between newlines. *)
Fixpoint blob_lines (b : bytes) : list bytes :=
  match b with
  | [] => []
  | c :: r => if Ascii.eqb c NL then [] :: blob_lines r
              else match blob_lines r with [] => [[c]] | l :: ls => (c :: l) :: ls end
  end.
Definition content_lines (c : content) : list bytes := match c with CText ls => ls | CBinary blob => blob_lines blob end.

(** ** What git prints for the difference of two trees *)

(** The lines of one side of a textual diff; an absent file has none. *)
Definition side_text (o : option content) : option (list bytes) :=
  match o with None => Some [] | Some (CText ls) => Some ls | Some (CBinary _) => None end.

(** The body printed for a file with old content [o] and new content [n], with [k] lines of context. *)
Definition body_between (k : nat) (o n : option content) (b : fbody) : Prop :=
  match b with
  | FBNone => match o, n with
              | Some a, Some c => a = c
              | Some a, None | None, Some a => a = CText []
              | None, None => True
              end
  | FBBinary => (exists x, o = Some (CBinary x)) \/ (exists x, n = Some (CBinary x))
  | FBText hs => has_context k 0 true hs /\
      exists tail, side_text o = Some (old_text (script hs tail)) /\ side_text n = Some (new_text (script hs tail))
  end.

(** A regular file replaced by a symbolic link or a submodule, or the other way round. *)
Definition retyped (t t' : tree) (f : bytes) : Prop :=
  exists e e', t !! f = Some e /\ t' !! f = Some e' /\ take 2 (en_mode e) <> take 2 (en_mode e').

(** One file's patch between two trees. *)
Definition patch_between (k : nat) (t t' : tree) (p : fpatch) : Prop :=
  wf_patch p /\ short_lines (patch_lines p) /\
  match fp_kind p with
  | FModify f _ => exists e e', t !! f = Some e /\ t' !! f = Some e' /\ e <> e' /\ ~ retyped t t' f /\
                   body_between k (Some (en_content e)) (Some (en_content e')) (fp_body p)
  | FCreate f _ => exists e', t' !! f = Some e' /\ (t !! f = None \/ retyped t t' f) /\
                   body_between k None (Some (en_content e')) (fp_body p)
  | FDelete f _ => exists e, t !! f = Some e /\ (t' !! f = None \/ retyped t t' f) /\
                   body_between k (Some (en_content e)) None (fp_body p)
  | FRename f g _ _ => exists e e', t !! f = Some e /\ t' !! f = None /\ t !! g = None /\ t' !! g = Some e' /\
                   body_between k (Some (en_content e)) (Some (en_content e')) (fp_body p)
  end.

(** The path a patch writes (none for a deletion) and the path it removes (the old name of a deletion or rename). *)
Definition writes (p : fpatch) (f : bytes) : Prop := f <> [] /\ name_after (fp_kind p) = f.
Definition removes (p : fpatch) (f : bytes) : Prop :=
  match fp_kind p with FDelete g _ | FRename g _ _ _ => g = f | _ => False end.
Definition deletes (p : fpatch) (f : bytes) : Prop := match fp_kind p with FDelete g _ => g = f | _ => False end.

(** The patches describe the difference of the trees: each is one git could print, every path that differs is covered,
    no path is written twice, and when a path is deleted and created (a change of type) the deletion comes first. *)
Definition describes (k : nat) (t t' : tree) (ps : list fpatch) : Prop :=
  Forall (patch_between k t t') ps /\
  (forall f, t !! f <> t' !! f ->
     (is_Some (t' !! f) -> exists p, p ∈ ps /\ writes p f) /\ (t' !! f = None -> exists p, p ∈ ps /\ removes p f)) /\
  (forall i j p q f, ps !! i = Some p -> ps !! j = Some q -> writes p f -> writes q f -> i = j) /\
  (forall i j p q f, ps !! i = Some p -> ps !! j = Some q -> writes p f -> deletes q f -> j < i).

(** ** Histories *)

(** What the log shows of a commit apart from its patches. *)
Record cmeta := CMeta { cm_merge : bytes; cm_author : bytes; cm_subject : list bytes; cm_blank : nat }.
Record history := History {
  hi_parents : graph;
  hi_tree : bytes -> tree;                       (* the files of each commit *)
  hi_diff : bytes -> bytes -> list fpatch;       (* what git prints for a commit against one parent, [] for a root *)
  hi_meta : bytes -> cmeta }.

Definition hparents (H : history) (c : bytes) : list bytes := parents (hi_parents H) c.
(** The tree a patch list starts from. *)
Definition base_tree (H : history) (p : bytes) : tree := if decide (p = []) then ∅ else hi_tree H p.

Definition wf_meta (m : cmeta) : Prop := no_nl (cm_merge m) /\ no_nl (cm_author m) /\ Forall no_nl (cm_subject m).
(** One commit of a history: its printed diffs describe its tree. *)
Definition wf_commit (k : nat) (H : history) (c : bytes) : Prop :=
  commit_id c /\ Forall commit_id (hparents H c) /\ NoDup (hparents H c) /\ wf_meta (hi_meta H c) /\
  (hparents H c = [] -> describes k ∅ (hi_tree H c) (hi_diff H c [])) /\
  (forall p, p ∈ hparents H c -> describes k (hi_tree H p) (hi_tree H c) (hi_diff H c p)).

(** All commits of the graph are well-formed and their parents are in the graph. *)
Definition valid_history (k : nat) (H : history) : Prop :=
  complete (hi_parents H) /\ forall c, is_Some (hi_parents H !! c) -> wf_commit k H c.

(** ** The log: [git log -p -m --reverse] *)
Definition entry_of (H : history) (c : bytes) (from : option bytes) (ps : list fpatch) : log_entry :=
  let m := hi_meta H c in
  LogEntry c from (if decide (1 < length (hparents H c)) then Some (cm_merge m) else None)
           (cm_author m) (cm_subject m) (cm_blank m) ps.
(** A merge is printed once for each parent it differs from, or once without patches if there is none. *)
Definition entries_of (H : history) (c : bytes) : list log_entry :=
  match hparents H c with
  | [] => [entry_of H c None (hi_diff H c [])]
  | [p] => [entry_of H c None (hi_diff H c p)]
  | ps => match filter (fun p => hi_diff H c p <> []) ps with
          | [] => [entry_of H c None []]
          | qs => map (fun p => entry_of H c (Some p) (hi_diff H c p)) qs
          end
  end.
Definition git_log (H : history) (cs : list bytes) : list log_entry := concat (map (entries_of H) cs).

(** No commit is listed twice, and the parents of each are known or come before it, never after it. *)
Fixpoint parents_first (H : history) (known cs : list bytes) : Prop :=
  match cs with
  | [] => True
  | c :: r => c ∉ r /\ (forall p, p ∈ hparents H c -> p ∈ known /\ p ∉ r) /\ parents_first H (c :: known) r
  end.

(** ** Blame

    [blame_of H slow c f b]: [b] is the blame data of path [f] in commit [c] that follows from the history.  [slow] is
    [git blame] itself, consulted when a textual change is made to a file tracked as binary. *)

(** The body of a patch is textual (no hunks if the content does not change). *)
Definition text_body (p : fpatch) (hs : list shunk) : Prop :=
  fp_body p = FBText hs \/ (fp_body p = FBNone /\ hs = []).

(** Each line of a merged file goes to the first parent that has it, or else to the merge. *)
Definition merged_lines (c : bytes) (mps : list mparent) (ls : list line) : Prop :=
  forall n l, ls !! n = Some l ->
    (exists j p o, mps !! j = Some p /\ kept_line p n o /\
        (forall i pi, i < j -> mps !! i = Some pi -> added_line pi n) /\ l_commit l = l_commit o)
    \/ ((forall i pi, mps !! i = Some pi -> added_line pi n) /\ l_commit l = c).

Section blame.
  Context (H : history) (slow : bytes -> bytes -> outcome blame).

  (** The patches of a commit with at most one parent. *)
  Definition patches_of (c : bytes) : list fpatch :=
    match hparents H c with [] => hi_diff H c [] | [p] => hi_diff H c p | _ => [] end.

  Inductive blame_of : bytes -> bytes -> blame -> Prop :=
  | bo_same c p f b : hparents H c = [p] -> is_Some (hi_tree H c !! f) ->
      (forall q, q ∈ hi_diff H c p -> ~ writes q f) -> blame_of p f b -> blame_of c f b
  | bo_created c f q hs ls : length (hparents H c) <= 1 -> q ∈ patches_of c -> writes q f ->
      name_before (fp_kind q) = [] -> text_body q hs ->
      attributed cr_trimmed c (script hs []) [] ls -> blame_of c f (Blame c ls false)
  | bo_changed c p f q hs tail b ls : hparents H c = [p] -> q ∈ hi_diff H c p -> writes q f ->
      name_before (fp_kind q) <> [] -> text_body q hs ->
      blame_of p (name_before (fp_kind q)) b -> b_binary b = false ->
      Forall2 same_up_to_cr (texts (b_lines b)) (old_text (script hs tail)) ->
      attributed cr_trimmed c (script hs tail) (b_lines b) ls -> blame_of c f (Blame c ls false)
  | bo_binary c f q : length (hparents H c) <= 1 -> q ∈ patches_of c -> writes q f ->
      fp_body q = FBBinary -> blame_of c f (blame_binary_file c)
  | bo_moved_binary c p f q b : hparents H c = [p] -> q ∈ hi_diff H c p -> writes q f ->
      name_before (fp_kind q) <> [] -> name_before (fp_kind q) <> f -> fp_body q = FBNone ->
      blame_of p (name_before (fp_kind q)) b -> b_binary b = true -> blame_of c f b
  | bo_rebuilt c p f q hs b b' : hparents H c = [p] -> q ∈ hi_diff H c p -> writes q f ->
      name_before (fp_kind q) <> [] -> text_body q hs ->
      blame_of p (name_before (fp_kind q)) b -> b_binary b = true -> slow c f = Ret b' -> blame_of c f b'
  | bo_merge_same c p f b : 1 < length (hparents H c) -> p ∈ hparents H c ->
      is_Some (hi_tree H c !! f) -> hi_tree H p !! f = hi_tree H c !! f -> blame_of p f b -> blame_of c f b
  | bo_merge c f e txt mps ls : 1 < length (hparents H c) ->
      hi_tree H c !! f = Some e -> txt = content_lines (en_content e) -> length mps = length (hparents H c) ->
      (forall i p m, hparents H c !! i = Some p -> mps !! i = Some m ->
         mp_patch m ∈ hi_diff H c p /\ writes (mp_patch m) f /\ text_body (mp_patch m) (mp_hunks m) /\
         new_text (mp_script m) = txt /\ b_binary (mp_blame m) = false) ->
      (forall i p m, hparents H c !! i = Some p -> mps !! i = Some m ->
         name_before (fp_kind (mp_patch m)) = [] -> mp_blame m = blame_zero) ->
      (forall i p m, hparents H c !! i = Some p -> mps !! i = Some m ->
         name_before (fp_kind (mp_patch m)) <> [] -> blame_of p (name_before (fp_kind (mp_patch m))) (mp_blame m)) ->
      Forall2 same_up_to_cr (texts ls) txt -> merged_lines c mps ls -> blame_of c f (Blame c ls false)
  | bo_merge_binary c f p q : 1 < length (hparents H c) -> p ∈ hparents H c -> q ∈ hi_diff H c p -> writes q f ->
      fp_body q = FBBinary -> blame_of c f (blame_binary_file c)
  | bo_merge_opaque c f p q b : 1 < length (hparents H c) -> p ∈ hparents H c -> q ∈ hi_diff H c p -> writes q f ->
      name_before (fp_kind q) <> [] -> blame_of p (name_before (fp_kind q)) b -> b_binary b = true ->
      blame_of c f (blame_binary_file c).

  (** What is assumed of [git blame]: on a file of the commit it returns the file's lines, attributed to commits the
      file's commit descends from (or itself). *)
  Definition slow_blame_right : Prop :=
    forall c f e, hi_tree H c !! f = Some e ->
      exists b, slow c f = Ret b /\ b_binary b = false /\
        Forall2 same_up_to_cr (texts (b_lines b)) (content_lines (en_content e)) /\
        (forall l, l ∈ b_lines b -> reaches (hi_parents H) c (l_commit l)).
End blame.
