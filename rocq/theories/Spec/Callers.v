(** * What a caller of CodeByCommit should receive *)
From Verif.Model Require Import Base GoStrings IncBlame LogParser ParentsGraph Process Msgp Checkpoint CheckpointFS CommitMeta FileInfo CodeInfo Net Pipeline Callers.

Section Callers.
Context {T L : Type} (zero_time : T) (cl : classifiers L).
Context (count : bytes -> bytes -> bytes -> list (Z * line_type) * totals) (meta : gmap bytes (mcommit T)).
Context (orders : nat -> list (bytes * blame) -> list (bytes * blame)).

(** The commits of the results [rs], each with its records, computed one after the other; the first result is the [n]-th. *)
Inductive commits_for : gmap bytes bytes -> nat -> list result -> list (mcommit T * list (bresult T L)) -> Prop :=
| cf_nil cache n : commits_for cache n [] []
| cf_cons cache n r rs c cache' x ys :
    meta !! r_commit r = Some c -> code_info_files zero_time cl count meta (orders n) cache r = Ret (cache', x) ->
    commits_for cache' (S n) rs ys -> commits_for cache n (r :: rs) ((c, x) :: ys).

(** ** Observations *)
Notation config := (config chan (@clocal T L)).
(** What the caller has received: the commits, each with the records it read. *)
Definition commits_received (c : config) : list (mcommit T * list (bresult T L)) :=
  match locals c !! 3 with
  | Some (BC (CLoop g)) | Some (BC (CStop g)) | Some (BC (CGone g)) => g
  | Some (BC (CRecs _ _ c rs g)) => g ++ [(c, rs)]
  | _ => []
  end.
Definition call_returned (c : config) : option (outcome unit * option (repo * bytes)) :=
  match locals c !! 0 with Some (BL (LM (MStop oc w))) => Some (oc, w) | _ => None end.
(** All goroutines that were started have returned. *)
Definition all_done (c : config) : Prop :=
  Forall (fun l => match l with
    | BL (LM (MStop _ _)) | BL (LP PStop) | BL (LP PIdle) | BL (LW WStop) | BL (LW WIdle) | BC (CStop _) | BC (CGone _) => True | _ => False end) (locals c).
(** The records received by a caller of Code. *)
Definition taken (c : config) : list (bresult T L) :=
  match locals c !! 4 with Some (BQ (QLoop g)) | Some (BQ (QStop g)) | Some (BQ (QGone g)) => g | _ => [] end.

(** A caller that starts a goroutine for each commit: the commits it has received, and the commit and the records its [n]-th goroutine has; that this
    goroutine has seen the end of its channel and returned. *)
Definition commits_taken (c : config) : list (mcommit T) :=
  match locals c !! 3 with Some (BR (RLoop g)) | Some (BR (RStop g)) => g | Some (BR (RGo c _ g)) => g ++ [c] | _ => [] end.
Definition reader_has (c : config) (n : nat) : option (mcommit T * list (bresult T L)) :=
  match locals c !! (4 + n) with Some (BR (RRecs _ c rs)) | Some (BR (RDone _ c rs)) => Some (c, rs) | _ => None end.
Definition reader_done (c : config) (n : nat) : Prop := match locals c !! (4 + n) with Some (BR (RDone _ _ _)) => True | _ => False end.
(** The goroutines of the library and the receiving one have returned. *)
Definition readers_done (c : config) : Prop :=
  match locals c with
  | BL (LM (MStop _ _)) :: BL (LP p) :: BL (LW w) :: BR (RStop _) :: _ => match p with PStop | PIdle => True | _ => False end /\ match w with WStop | WIdle => True | _ => False end
  | _ => False
  end.

(** One list of commits with records is part of another: it is a prefix but for the records of its last commit, which may be incomplete. *)
Definition part_of (g h : list (mcommit T * list (bresult T L))) : Prop :=
  g = [] \/ exists pre c rs rs' post, g = pre ++ [(c, rs)] /\ rs `prefix_of` rs' /\ h = pre ++ (c, rs') :: post.
(** The caller reads all records of all commits: it does not stop before a commit of [ys], and for none of them does it want fewer
    records than there are. *)
Definition reads_all (want : nat -> mcommit T -> option nat) (quit : option nat) (ys : list (mcommit T * list (bresult T L))) : Prop :=
  forall pre c rs post, ys = pre ++ (c, rs) :: post ->
    quit <> Some (length pre) /\ match want (length pre) c with Some k => length rs <= k | None => True end.
End Callers.
