(** * Caching the output of commands: what is asked for *)
From Verif.Model Require Import Base GoStrings GitCache.

(** gzip: what is compressed can be read again, and a part of it cannot. *)
Definition compression (gz : bytes -> bytes) (gunzip : bytes -> option bytes) : Prop :=
  (forall x, gunzip (gz x) = Some x) /\ forall x p q, gz x = p ++ q -> q <> [] -> gunzip p = None.

(** A repository in some state: what git prints for HEAD, and what it answers to other commands. *)
Record state := State { st_printed : bytes; st_git : list bytes -> outcome bytes }.
Definition st_head (s : state) : bytes := head_commit (st_printed s).

(** [r] is a run of the command [args] in the state [s]: if git works, the chunks are the compressed output. *)
Definition run_of (gz : bytes -> bytes) (s : state) (args : list bytes) (r : run) : Prop :=
  match st_git s args with
  | Ret out => ru_ok r = true /\ concat (ru_chunks r ++ ru_rest r) = gz out
  | Err _ | Panic _ => ru_ok r = false
  end.

(** Calls one after the other; each is in some state, and is cut off (a crash) after some number of operations, or not ([None]). *)
Record cached_call := CachedCall { cc_state : state; cc_args : list bytes; cc_run : run; cc_cut : option nat }.
Definition after_call (hash : bytes -> bytes) (d : gmap bytes bytes) (c : cached_call) : gmap bytes bytes :=
  let ops := cached_ops d (cache_key hash (cc_args c) (st_head (cc_state c))) (cc_run c) in
  apply_all d (match cc_cut c with Some n => take n ops | None => ops end).
Definition after_calls (hash : bytes -> bytes) (cs : list cached_call) : gmap bytes bytes := fold_left (after_call hash) cs ∅.
(** What is in a cache key. *)
Definition asked (args : list bytes) (head : bytes) : bytes := join (B "@") args ++ head.
