(** * The checkpoint directory: file operations of the writer and the reader, and the top level of a run

    /repo/ripsrc/history3/process/repo/writer.go, msgp.go, reader.go and /repo/ripsrc/history3/process/process.go:94-219.
    The cache directory holds at most two directories, "tmp" and "checkpoint", with plain files only.  File contents are the
    streams of records (compression is not modelled, see Checkpoint.v).  An operation is one change of the directory or of a
    file as other processes see it; a crash stops the sequence of operations (no operation is lost or reordered, as happens
    when the process, not the machine, stops; the program never calls fsync). *)
From Verif.Model Require Import Base IncBlame LogParser Msgp Process Checkpoint.

Notation dir := (gmap bytes bytes).
Record fs := FS { fs_tmp : option dir; fs_cp : option dir }.

Inductive op :=
| ORemoveTmp (name : bytes)          (* unlink in tmp, part of os.RemoveAll *)
| ORmdirTmp                          (* the last step of os.RemoveAll(tmp) *)
| OMkdirTmp                          (* os.MkdirAll *)
| OCreate (name : bytes)             (* os.Create in tmp: a new or emptied file *)
| OAppend (name : bytes) (d : bytes) (* a write to an open file in tmp *)
| ORename (a b : bytes)              (* os.Rename within tmp *)
| ORemoveCp (name : bytes)           (* unlink in checkpoint, part of os.RemoveAll *)
| ORmdirCp
| OInstall.                          (* os.Rename(tmp, checkpoint) *)

(** One operation.  Operations on what is not there do nothing; a directory is only removed, or replaced, when it is empty. *)
Definition rmdir (d : option dir) : option dir := match d with Some t => if decide (map_to_list t = []) then None else Some t | None => None end.
Definition apply_op (s : fs) (o : op) : fs :=
  match o with
  | ORemoveTmp n => FS (delete n <$> fs_tmp s) (fs_cp s)
  | ORmdirTmp => FS (rmdir (fs_tmp s)) (fs_cp s)
  | OMkdirTmp => FS (Some (default ∅ (fs_tmp s))) (fs_cp s)
  | OCreate n => FS (<[ n := [] ]> <$> fs_tmp s) (fs_cp s)
  | OAppend n d => FS ((fun t : dir => <[ n := default [] (t !! n) ++ d ]> t) <$> fs_tmp s) (fs_cp s)
  | ORename a b => FS ((fun t : dir => match t !! a with Some d => <[ b := d ]> (delete a t) | None => t end) <$> fs_tmp s) (fs_cp s)
  | ORemoveCp n => FS (fs_tmp s) (delete n <$> fs_cp s)
  | ORmdirCp => FS (fs_tmp s) (rmdir (fs_cp s))
  | OInstall => match fs_tmp s, rmdir (fs_cp s) with Some t, None => FS None (Some t) | _, _ => s end
  end.
Definition apply_ops (s : fs) (ops : list op) : fs := foldl apply_op s ops.

(** File names (writer.go:15-17, 51-66, msgp.go:24-25). *)
Definition n_repo := B "repo".
Definition n_blames := B "blames".
Definition n_lines := B "lines".
Definition n_ldata := B "line-data".
Definition n_version := B "checkpoint-version".
Definition dot_tmp (n : bytes) : bytes := n ++ B ".tmp".

(** The entries of a directory, in an order chosen by the file system. *)
Definition entries (d : option dir) : list bytes := match d with Some t => (map_to_list t).*1 | None => [] end.

(** writer.go:45-190: the operations of one Write.  [o1], [o2]: orders of removal.  [chunks] are the writes to the four open
    files, interleaved as buffers fill up; [vchunks] those of ioutil.WriteFile. *)
Definition write_ops (s : fs) (o1 o2 : list bytes -> list bytes) (chunks : list (bytes * bytes)) (vchunks : list bytes) : list op :=
  (* writer.go:46 *)
  map ORemoveTmp (o1 (entries (fs_tmp s))) ++ [ORmdirTmp] ++
  (* writer.go:51-66, msgp.go:18-33 *)
  concat (map (fun n => [OMkdirTmp; OCreate (dot_tmp n)]) [n_repo; n_blames; n_lines; n_ldata]) ++
  (* writer.go:85-149 and the flushes of msgp.go:39-48 *)
  map (fun x : bytes * bytes => OAppend (dot_tmp x.1) x.2) chunks ++
  (* writer.go:151-166, msgp.go:49-55 *)
  map (fun n => ORename (dot_tmp n) n) [n_repo; n_blames; n_lines; n_ldata] ++
  (* writer.go:168-171, 181-187 *)
  [OCreate (dot_tmp n_version)] ++ map (OAppend (dot_tmp n_version)) vchunks ++ [ORename (dot_tmp n_version) n_version] ++
  (* writer.go:173-178 *)
  map ORemoveCp (o2 (entries (fs_cp s))) ++ [ORmdirCp; OInstall].

(** What is written to file [n] in total. *)
Definition written (chunks : list (bytes * bytes)) (n : bytes) : bytes :=
  concat (map snd (filter (fun x : bytes * bytes => x.1 = n) chunks)).
(** The writes of a Write of the files [c] with last commit [v]: to each file its contents, in pieces. *)
Definition writes_of (c : cfiles) (v : bytes) (chunks : list (bytes * bytes)) (vchunks : list bytes) : Prop :=
  (forall x, x ∈ chunks -> x.1 ∈ [n_repo; n_blames; n_lines; n_ldata]) /\
  written chunks n_repo = cf_repo c /\ written chunks n_blames = cf_blames c /\ written chunks n_lines = cf_lines c /\
  written chunks n_ldata = cf_ldata c /\ concat vchunks = v.

(** reader.go:34-177.  ErrCheckpointNotExpected as its message (reader.go:20-22). *)
Definition not_expected (want have : bytes) : bytes :=
  B "ripsrc: requested checkpoint for commit " ++ want ++ B ", have checkpoint for commit " ++ have.
Definition open_file (d : dir) (n : bytes) : outcome bytes :=
  match d !! n with Some c => Ret c | None => Err (B "open " ++ n ++ B ": no such file or directory") end.
Definition read_dir (skip : bytes -> pres unit) (d : dir) : outcome prepo :=
  do a <- open_file d n_repo; do b <- open_file d n_blames; do l <- open_file d n_lines; do c <- open_file d n_ldata;
  read_files skip (CFiles a b l c).
Definition read_checkpoint (skip : bytes -> pres unit) (s : fs) (expected : bytes) : outcome prepo :=
  let d := default ∅ (fs_cp s) in
  do _ <- (if decide (expected <> []) then
             match d !! n_version with
             | None => Err (B "failed reading checkpoint version file, err: not found")
             | Some v => if decide (v <> expected) then Err (not_expected expected v) else Ret tt
             end
           else Ret tt);
  read_dir skip d.

(** ** The top level of a run *)

(** process.go:34-66: the options used here. *)
Record popts := POpts { po_from : bytes; po_nostrict : bool; po_nonincl : bool; po_all : bool; po_refs : list bytes }.

(** process.go:819-836: the arguments of git log that select commits. *)
Definition log_revs (o : popts) : list bytes :=
  if decide (po_from o <> []) then
    (if po_all o then po_refs o else []) ++ [po_from o ++ (if po_nonincl o then B "..HEAD" else B "^..HEAD")]
  else if po_all o then [B "--all"] else [].
(** process.go:107-129 *)
Definition init_checkpoints (skip : bytes -> pres unit) (o : popts) (s : fs) : outcome repo :=
  if decide (po_from o = []) then Ret ∅
  else match read_checkpoint skip s (if po_nostrict o then [] else po_from o) with
       | Ret P => Ret (values P)
       | Err m => Err (B "Could not read checkpoint: " ++ m)
       | Panic m => Panic m
       end.

(** process.go:131-219 with the log entries [log] as git returned them: the emitted results, the returned error, and what is
    passed to Write (state and last commit), if it is called. *)
Definition run_top (skip : bytes -> pres unit) (e : env) (o : popts) (s : fs) (log : list lcommit) : list result * outcome unit * option (repo * bytes) :=
  match log with
  | [] => ([], Ret tt, None)
  | _ :: _ =>
      match init_checkpoints skip o s with
      | Err m => ([], Err m, None)
      | Panic m => ([], Panic m, None)
      | Ret r =>
          let x := process_log e (pst_init r) log in
          match x.2 with
          | Ret _ => if decide (s_last x.1 = []) then (s_out x.1, Panic (B "no last commit provided"), None)   (* writer.go:31-33 *)
                     else (s_out x.1, Ret tt, Some (s_repo x.1, s_last x.1))
          | Err m => (s_out x.1, Err m, None)
          | Panic m => (s_out x.1, Panic m, None)
          end
      end
  end.
