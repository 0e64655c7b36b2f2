(** * What a call of Code must do, and what it leaves for the next one *)
From Verif.Model Require Import Base GoStrings IncBlame LogParser ParentsGraph Process Msgp Checkpoint CheckpointFS CommitMeta FileInfo CodeInfo Net Pipeline LogArgs Api.
From Verif.Spec Require Import Text UnifiedDiff Attribution GitLog CommitGraph History Processing Checkpoint Resuming Records MetaLog EndToEnd Delivery Selection GitAnswers.

(** The commits on HEAD that [p] does not descend from. *)
Definition since (R : gitrepo) (p c : bytes) : Prop := reaches (g_parents R) (g_head R) c /\ ~ reaches (g_parents R) p c.

(** A call with these options begins after the commit [p]: CommitFromIncl itself, or its first parent. *)
Definition starts_after (R : gitrepo) (o : ropts) (p : bytes) : Prop :=
  exists f, named R (ro_from o) = Some f /\ if ro_nonincl o then p = f else exists ps, g_parents R !! f = Some (p :: ps).
(** How such a call asks git. *)
Definition range_of (o : ropts) : bytes := ro_from o ++ if ro_nonincl o then B "..HEAD" else B "^..HEAD".

(** The commits of [P] have at most 1000 parents together. *)
Definition few_parents (g : graph) (P : bytes -> Prop) : Prop := exists l : list bytes, length l <= 1000 /\ forall c q, P c -> parent g c q -> q ∈ l.

(** In every schedule the call [act] ends without a crash, the caller has received [all] when the channel is closed, and a part of it before;
    [w] is what is passed to Write, if it is called. *)
Definition delivers {T L} (act : @local T L -> action chan (@value T L) (@local T L)) (write_err : option bytes) (all : list (bresult T L)) (w : option (repo * bytes)) : Prop :=
  (exists n, forall m c, nsteps (step act) m code_call c -> m <= n) /\ (exists c, rtc (step act) code_call c /\ final act c) /\
  forall c, rtc (step act) code_call c ->
    ~ crashing act c /\ received c `prefix_of` all /\ (c_res ∈ closed c -> received c = all) /\
    (final act c -> all_ended c /\ received c = all /\ c_res ∈ closed c /\ returned c = Some (with_write write_err (Ret tt) w, w)).

(** What [r] has stored is right: each commit of it is one of the history, with the right blame for each file of its tree. *)
Definition checkpoint_right (H : history) (slow : bytes -> bytes -> outcome blame) (r : repo) : Prop :=
  forall c fs, r !! c = Some fs -> is_Some (hi_parents H !! c) /\ good_files H slow c fs.

(** What a call over the commits [cs] that started from [r0] leaves: the checkpoint of the last of them.  It is right; it has that commit and, if
    those are at most 1000, its parents; and if the listed commits have at most 1000 parents together, it has all of them and all [r0] had. *)
Definition leaves_checkpoint (H : history) (slow : bytes -> bytes -> outcome blame) (r0 : repo) (cs : list bytes) (w : option (repo * bytes)) : Prop :=
  match w with
  | Some (r, v) => last cs = Some v /\ checkpoint_right H slow r /\ is_Some (r !! v) /\
      (length (hparents H v) <= 1000 -> forall q, q ∈ hparents H v -> is_Some (r !! q)) /\
      (forall l, length l <= 1000 -> (forall c q, c ∈ cs -> q ∈ hparents H c -> q ∈ l) -> forall x, x ∈ cs \/ is_Some (r0 !! x) -> is_Some (r !! x))
  | None => cs = []
  end.

(** [disk] is what writing the checkpoint [r] of the commit [v] left on some disk, in whatever order and in whatever pieces it was written.
    [hash]: the hash function of the files; no two texts of the checkpoint have the same hash. *)
Definition saved_on (hash : bytes -> N) (r : repo) (v : bytes) (disk : fs) : Prop :=
  exists P o1 o2 files d r1 r2 chunks vchunks,
    values P = r /\ sound P /\ encodable hash P /\ no_collision hash P /\ any_perm o1 /\ (forall c, any_perm (o2 c)) /\
    removal_order r1 /\ removal_order r2 /\ write_records hash P o1 o2 = Ret files /\ writes_of (encode_files files) v chunks vchunks /\
    disk = apply_ops d (write_ops d r1 r2 chunks vchunks).

(** The repository with the history [H1], where git answers [git1], has grown to [H] and [git]. *)
Definition grown (H1 : history) (git1 : bound -> list bytes -> outcome bytes) (H : history) (git : bound -> list bytes -> outcome bytes) : Prop :=
  extends H1 H /\
  forall x c f, is_Some (hi_parents H1 !! c) -> git1 x [B "blame"; c; B "--porcelain"; B "--"; f] = git x [B "blame"; c; B "--porcelain"; B "--"; f].
