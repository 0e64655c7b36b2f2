(** * A series of calls of Code over a repository that grows *)
From Verif.Model Require Import Base GoStrings IncBlame LogParser ParentsGraph Process Msgp Checkpoint CheckpointFS CommitMeta FileInfo CodeInfo Net Pipeline GitBlame LogArgs Api.
From Verif.Spec Require Import Text UnifiedDiff Attribution GitLog CommitGraph History Processing Checkpoint Resuming Records MetaLog EndToEnd Delivery Selection GitAnswers Continuing.

Section Series.
Context {T L : Type} (zt : T) (parse_date : bytes -> option T) (cl : classifiers L) (count : bytes -> bytes -> bytes -> list (Z * line_type) * totals).
Context (skip : bytes -> pres unit) (hash : bytes -> N) (k : nat).

(** A call: the repository as it is then (refs, content, metadata), what git answers, the temporary files and the directory, the options, the disk
    with the checkpoints, whether writing the new checkpoint fails, and the orders in which Go iterates. *)
Record call := Call {
  k_repo : gitrepo; k_hist : history; k_about : bytes -> meta_entry T; k_git : bound -> list bytes -> outcome bytes;
  k_tmp : nat -> outcome bytes; k_dir : bytes; k_opts : ropts; k_disk : fs; k_write_err : option bytes;
  k_orders : nat -> list (bytes * blame) -> list (bytes * blame); k_graph_order : graph -> list (bytes * list bytes); k_merge_orders : bytes -> orders }.

Definition k_setup (c : call) : outcome (setup T) := code_setup zt parse_date (k_graph_order c) (k_git c) (k_tmp c) (k_dir c) (k_opts c).
Definition k_act (c : call) (s : setup T) : @local T L -> action chan (@value T L) (@local T L) :=
  api_act zt cl count (k_orders c) (k_merge_orders c) skip (k_disk c) (k_write_err c) (k_git c) (k_opts c) s.

(** The call is made under good conditions: a usable repository, git answers (asked with [revs] for the commits), temporary files can be made. *)
Definition in_order (c : call) (revs : list bytes) : Prop :=
  usable k parse_date (k_repo c) (k_hist c) (k_about c) /\
  answers (k_repo c) (k_hist c) (k_about c) (k_git c) (if ro_all (k_opts c) then [B "--all"] else []) revs /\
  (exists f, k_tmp c 0 = Ret f) /\ (exists f, k_tmp c 1 = Ret f) /\
  (forall n, any_perm (k_orders c n)) /\ (forall g, k_graph_order c g ≡ₚ map_to_list g) /\ (forall x, any_orders (k_merge_orders c x)).

(** The first call: it reads everything. *)
Definition first_call (c : call) : Prop :=
  in_order c (if ro_all (k_opts c) then [B "--all"] else []) /\ ro_from (k_opts c) = [] /\
  few_parents (g_parents (k_repo c)) (selected (k_repo c) (ro_all (k_opts c))).
(** A later call [c]: the repository has grown since the call [c0], and [c] continues at the commit [v] of the checkpoint [r] that is on the disk.
    It lists the commits since [p], which have at most 1000 parents; no tree is empty. *)
Definition next_call (c0 : call) (r : repo) (v : bytes) (c : call) (p : bytes) : Prop :=
  in_order c [range_of (k_opts c)] /\ grown (k_hist c0) (k_git c0) (k_hist c) (k_git c) /\ saved_on hash r v (k_disk c) /\
  ro_from (k_opts c) = v /\ named (k_repo c) v = Some v /\ starts_after (k_repo c) (k_opts c) p /\
  few_parents (g_parents (k_repo c)) (since (k_repo c) p) /\
  forall x, is_Some (hi_parents (k_hist c) !! x) -> hi_tree (k_hist c) x <> ∅.

(** The call [c] has returned without an error; [rs]: the records the caller has received; [w]: what was written as the new checkpoint. *)
Definition returned_ok (c : call) (rs : list (bresult T L)) (w : option (repo * bytes)) : Prop :=
  exists s conf, k_setup c = Ret s /\ rtc (step (k_act c s)) code_call conf /\ final (k_act c s) conf /\
    returned conf = Some (Ret tt, w) /\ received conf = rs.

(** Calls one after the other, each with the records the caller has received from it; the last one is [c], and then [r], [v] is the last
    checkpoint that was written. *)
Inductive series : list (call * list (bresult T L)) -> call -> repo -> bytes -> Prop :=
| series_first c rs r v : first_call c -> returned_ok c rs (Some (r, v)) -> series [(c, rs)] c r v
| series_next l c0 r0 v0 c p rs w : series l c0 r0 v0 -> next_call c0 r0 v0 c p -> returned_ok c rs w ->
    series (l ++ [(c, rs)]) c (default (r0, v0) w).1 (default (r0, v0) w).2.

(** From this call the caller has received the records of the commits [cs], and they are right. *)
Definition call_right (x : call * list (bresult T L)) (cs : list bytes) : Prop :=
  NoDup cs /\ children_last (g_parents (k_repo x.1)) cs /\
  exists xs, Forall2 (commit_records_right (k_hist x.1) (fallback (k_git x.1)) (line_since zt (map (k_about x.1) cs))) cs xs /\ x.2 = concat xs.

(** A series that needs no commit twice: the first call is about HEAD only, the later ones leave CommitFromIncl out, and HEAD moves forward. *)
Definition forward (l : list (call * list (bresult T L))) : Prop :=
  (forall x, l !! 0 = Some x -> ro_all (k_opts x.1) = false) /\
  (forall i x, l !! S i = Some x -> ro_nonincl (k_opts x.1) = true) /\
  forall i x y, l !! i = Some x -> l !! S i = Some y -> reaches (g_parents (k_repo y.1)) (g_head (k_repo y.1)) (g_head (k_repo x.1)).

(** The call, however it is scheduled, ends without a crash and without an error (if the new checkpoint can be written), and the caller has received
    exactly the right records of the commits since [p]. *)
Definition works (c : call) (p : bytes) : Prop :=
  exists s, k_setup c = Ret s /\ exists cs xs w, lists_exactly cs (since (k_repo c) p) /\ call_right (c, concat xs) cs /\
    delivers (k_act c s) (k_write_err c) (concat xs) w.
End Series.
