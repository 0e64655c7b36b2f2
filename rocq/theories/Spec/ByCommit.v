(** * What a call of CodeByCommit must do *)
From Verif.Model Require Import Base GoStrings IncBlame LogParser ParentsGraph Process Msgp Checkpoint CheckpointFS CommitMeta FileInfo CodeInfo Net Pipeline Callers.
From Verif.Spec Require Import Text UnifiedDiff Attribution GitLog CommitGraph History Processing Records MetaLog EndToEnd Delivery Callers.

(** What is delivered for the commit [c] is right: the commit itself, with the id, authors, dates, message, parents and changed files that
    git has for it (in some position), and exactly the right records; each record has this commit, and the status the commit has for its file. *)
Definition commit_delivered {T L} (H : history) (slow : bytes -> bytes -> outcome blame) (line_ok : line -> bline T -> Prop) (about : bytes -> meta_entry T)
    (c : bytes) (y : mcommit T * list (bresult T L)) : Prop :=
  (exists n, y.1 = meta_commit n (about c)) /\ commit_records_right H slow line_ok c y.2 /\
  forall r, r ∈ y.2 -> br_commit r = y.1 /\ exists f, mc_files y.1 !! br_filename r = Some f /\ cf_status f = br_status r.

(** The delivered commits have the numbers 1, 2, and so on, each once, in some order. *)
Definition numbered {T L} (ys : list (mcommit T * list (bresult T L))) : Prop := map (fun y => mc_ordinal y.1) ys ≡ₚ map Z.of_nat (seq 1 (length ys)).

(** In every schedule the call ends without a crash, and the caller has received [ys] when it ends, and a part of it before; [w] is what
    is passed to Write, if it is called. *)
Definition delivers_commits {T L} (act : @clocal T L -> action chan (@value T L) (@clocal T L)) (call : config chan (@clocal T L)) (write_err : option bytes)
    (ys : list (mcommit T * list (bresult T L))) (w : option (repo * bytes)) : Prop :=
  (exists n, forall m c, nsteps (step act) m call c -> m <= n) /\ (exists c, rtc (step act) call c /\ final act c) /\
  forall c, rtc (step act) call c ->
    ~ crashing act c /\ part_of (commits_received c) ys /\
    (final act c -> all_done c /\ commits_received c = ys /\ c_res2 ∈ closed c /\ call_returned c = Some (with_write write_err (Ret tt) w, w)).

(** The call never ends for its caller. *)
Definition never_returns {T L} (act : @clocal T L -> action chan (@value T L) (@clocal T L)) (call : config chan (@clocal T L)) : Prop :=
  forall c, rtc (step act) call c -> call_returned c = None /\ c_res2 ∉ closed c.

(** The same for a caller that starts a goroutine for each commit, with which it reads the records of that commit. *)
Definition delivers_to_readers {T L} (act : @clocal T L -> action chan (@value T L) (@clocal T L)) (call : config chan (@clocal T L)) (write_err : option bytes)
    (ys : list (mcommit T * list (bresult T L))) (w : option (repo * bytes)) : Prop :=
  (exists n, forall m c, nsteps (step act) m call c -> m <= n) /\ (exists c, rtc (step act) call c /\ final act c) /\
  forall c, rtc (step act) call c ->
    ~ crashing act c /\ commits_taken c `prefix_of` map fst ys /\
    (forall n m rs, reader_has c n = Some (m, rs) -> exists rs', ys !! n = Some (m, rs') /\ rs `prefix_of` rs') /\
    (final act c -> readers_done c /\ commits_taken c = map fst ys /\ (forall n y, ys !! n = Some y -> reader_has c n = Some y /\ reader_done c n) /\
       c_res2 ∈ closed c /\ call_returned c = Some (with_write write_err (Ret tt) w, w)).
