(** * The statistics of a run

    GitProcessTimings (/repo/ripsrc/ripsrc.go:57, code.go:185-189, history3/process/process.go:92,103-105,279-304,337-346,484-493) and CodeInfoTimings
    (ripsrc.go:58,78, code_info.go:99-116), which a caller reads after Code or CodeByCommit.  The functions of Model/Process.v once more, with what they measure.

    Simplifications: durations are integers; the [n]-th that a run measures is [dur n], any function.  The text that OutputStats prints (process.go:323-336,
    code_info.go:104-108) is in Model/StatsText.v. *)
From Verif.Model Require Import Base GoStrings IncBlame LogParser ParentsGraph Process Timing Msgp Checkpoint CheckpointFS CommitMeta FileInfo CodeInfo.

(** process.go:279-285 *)
Record timing := Tm { tm_regular : nat; tm_regular_time : Z; tm_merges : nat; tm_merges_time : Z; tm_slowest : list timed }.
(** process.go:92 *)
Definition no_timing : timing := Tm 0 0 0 0 [].

Section Stats.
Context (srt : list timed -> list timed) (dur : nat -> Z) (e : env).
(** How many durations were measured. *)
Definition measured (t : timing) : nat := tm_regular t + tm_merges t.
(** process.go:341-346: deferred, so also if the commit cannot be processed. *)
Definition time_regular (t : timing) (c : bytes) : timing :=
  let d := dur (measured t) in
  Tm (S (tm_regular t)) (tm_regular_time t + d) (tm_merges t) (tm_merges_time t) (update_slowest srt (tm_slowest t) (Timed c d)).
(** process.go:488-493 *)
Definition time_merge (t : timing) (c : bytes) : timing :=
  let d := dur (measured t) in
  Tm (tm_regular t) (tm_regular_time t) (S (tm_merges t)) (tm_merges_time t + d) (update_slowest srt (tm_slowest t) (Timed c d)).

(** process.go:269-277, 484-493 *)
Definition got_merge_parts_t (s : pst) (t : timing) : pst * outcome unit * timing := (got_merge_parts e s, time_merge t (s_mcommit s)).
(** process.go:253-267, 337-346 *)
Definition new_commit_t (s : pst) (t : timing) (c : lcommit) : pst * outcome unit * timing :=
  if decide (1 < length (env_parents e (lc_hash c))) then (new_commit e s c, t) else (new_commit e s c, time_regular t (lc_hash c)).
(** process.go:238-267 *)
Definition process_commit_t (s : pst) (t : timing) (c : lcommit) : pst * outcome unit * timing :=
  if decide (s_mparts s = ∅) then new_commit_t s t c
  else if bool_decide (s_mcommit s = lc_hash c) then (process_commit e s c, t)
  else match got_merge_parts_t s t with
       | (s1, Ret _, t1) => new_commit_t s1 t1 c
       | x => x
       end.
(** process.go:180-199 *)
Fixpoint process_commits_t (s : pst) (t : timing) (cs : list lcommit) : pst * outcome unit * timing :=
  match cs with
  | [] => (s, Ret tt, t)
  | c :: r => match process_commit_t s t c with (s', Ret _, t') => process_commits_t s' t' r | x => x end
  end.
Definition process_log_t (s : pst) (t : timing) (cs : list lcommit) : pst * outcome unit * timing :=
  match process_commits_t s t cs with
  | (s', Ret _, t') => if decide (s_mparts s' = ∅) then (s', Ret tt, t') else got_merge_parts_t s' t'
  | x => x
  end.
(** What a run has measured when it ends (process.go:131-219); nothing if there is no commit or the checkpoint cannot be read. *)
Definition run_timing (skip : bytes -> pres unit) (o : popts) (s : fs) (log : list lcommit) : timing :=
  match log with
  | [] => no_timing
  | _ :: _ => match init_checkpoints skip o s with Ret r => (process_log_t (pst_init r) no_timing log).2 | _ => no_timing end
  end.
End Stats.

(** ** The files that were looked at *)
Section Files.
Context {T L : Type} (zero_time : T) (cl : classifiers L) (count_stats : bytes -> bytes -> bytes -> list (Z * line_type) * totals) (meta : gmap bytes (mcommit T)) (fdur : nat -> Z).
(** CodeInfoTimings (code_info.go:99-102). *)
Record files_timing := FilesTm { ft_count : nat; ft_time : Z }.
(** code_info.go:111-116 *)
Definition time_file (f : files_timing) : files_timing := FilesTm (S (ft_count f)) (ft_time f + fdur (ft_count f)).
(** code_info.go:40-85 again: codeInfoFile is called for a file with a status other than removed and without a reason to skip it. *)
Definition code_info_step_t (commit : mcommit T) (st : gmap bytes bytes * list (bresult T L) * files_timing) (pb : bytes * blame) : outcome (gmap bytes bytes * list (bresult T L) * files_timing) :=
  let '(cache, res, f) := st in
  do st' <- code_info_step zero_time cl count_stats meta commit (cache, res) pb;
  let called := negb (beq pb.1 []) && match mc_files commit !! pb.1 with
    | None => false
    | Some cf => if decide (cf_status cf = Removed) then false
                 else match get_info cl cache pb.1 (file_content pb.2) (file_lines pb.2) with Ret (i, _) => bool_decide (i_skip i = []) | _ => false end
    end in
  Ret (st', if called then time_file f else f).
Definition code_info_files_t (order : list (bytes * blame) -> list (bytes * blame)) (cache : gmap bytes bytes) (f : files_timing) (x : result)
    : outcome (gmap bytes bytes * list (bresult T L) * files_timing) :=
  let commit := meta_of zero_time meta (r_commit x) in
  if forallb (fun kf : bytes * cfile => negb (cf_renamed kf.2) || bool_decide (is_Some (r_files x !! cf_renamed_to kf.2))) (map_to_list (mc_files commit))
  then ofold (code_info_step_t commit) (cache, [], f) (order (map_to_list (r_files x)))
  else Panic (B "File was in stats output, but not in blame").
(** code.go:145-167: the results of a run, one after the other. *)
Fixpoint all_files_t (orders : nat -> list (bytes * blame) -> list (bytes * blame)) (cache : gmap bytes bytes) (f : files_timing) (n : nat) (rs : list result)
    : outcome (gmap bytes bytes * list (list (bresult T L)) * files_timing) :=
  match rs with
  | [] => Ret (cache, [], f)
  | r :: rs =>
      do x <- code_info_files_t (orders n) cache f r;
      let '(cache1, l, f1) := x in
      do y <- all_files_t orders cache1 f1 (S n) rs;
      let '(cache2, ls, f2) := y in Ret (cache2, l :: ls, f2)
  end.
End Files.

(** ** What an object shows after its calls *)
Record shown := Shown { sh_git : timing; sh_files : files_timing }.
(** ripsrc.go:57,78 *)
Definition shown_first : shown := Shown no_timing (FilesTm 0 0).
(** code.go:185-189 and 110-117: after a call that ended with [oc]; [t]: what its run measured; [f]: the files it looked at were added. *)
Definition shown_after (s : shown) (oc : outcome unit) (t : timing) (f : files_timing) : shown :=
  Shown (match oc with Ret _ => t | _ => sh_git s end) f.
