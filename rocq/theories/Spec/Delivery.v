(** * What the caller of Code should receive *)
From Verif.Model Require Import Base GoStrings IncBlame LogParser ParentsGraph Process Msgp Checkpoint CheckpointFS CommitMeta FileInfo CodeInfo Net Pipeline.

Section Delivery.
Context {T L : Type} (zero_time : T) (cl : classifiers L).
Context (count : bytes -> bytes -> bytes -> list (Z * line_type) * totals) (meta : gmap bytes (mcommit T)).
Context (orders : nat -> list (bytes * blame) -> list (bytes * blame)).

(** The records of the results [rs], one list per result, computed one after the other; the first result is the [n]-th. *)
Inductive records_for : gmap bytes bytes -> nat -> list result -> list (list (bresult T L)) -> Prop :=
| rf_nil cache n : records_for cache n [] []
| rf_cons cache n r rs cache' x xs :
    is_Some (meta !! r_commit r) -> code_info_files zero_time cl count meta (orders n) cache r = Ret (cache', x) ->
    records_for cache' (S n) rs xs -> records_for cache n (r :: rs) (x :: xs).

(** ** Observations *)
Notation config := (config chan (@local T L)).
(** The records the caller has received. *)
Definition received (c : config) : list (bresult T L) :=
  match locals c !! 4 with Some (LU (ULoop g)) | Some (LU (UStop g)) => g | _ => [] end.
(** The call has returned: its error, and what was passed to Write, if it was called. *)
Definition returned (c : config) : option (outcome unit * option (repo * bytes)) :=
  match locals c !! 0 with Some (LM (MStop oc w)) => Some (oc, w) | _ => None end.
(** All goroutines that were started have returned. *)
Definition ended (l : @local T L) : Prop :=
  match l with
  | LM (MStop _ _) | LP PStop | LP PIdle | LW WStop | LW WIdle | LF FStop | LF FIdle | LU (UStop _) => True
  | _ => False
  end.
Definition all_ended (c : config) : Prop := Forall ended (locals c).
(** The log parser is about to end the program. *)
Definition parser_panics (c : config) : Prop := exists m, locals c !! 1 = Some (LP (PCrash m)).
(** Write has been called with this state and commit. *)
Definition checkpoint_passed (c : config) (w : repo * bytes) : Prop :=
  match locals c !! 0 with
  | Some (LM (MCloseGit _ w')) | Some (LM (MWaitW _ w')) | Some (LM (MCloseRes2 _ w')) | Some (LM (MWaitF _ w')) | Some (LM (MCloseRes _ w'))
  | Some (LM (MStop _ w')) => w' = Some w
  | _ => False
  end.
(** The error of a run of which [oc] is the result and [w] is passed to Write. *)
Definition with_write (write_err : option bytes) (oc : outcome unit) (w : option (repo * bytes)) : outcome unit :=
  match w, write_err with Some _, Some m => Err m | _, _ => oc end.
End Delivery.
