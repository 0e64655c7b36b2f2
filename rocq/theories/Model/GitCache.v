(** * Commands of git with a cache

    Models /repo/ripsrc/gitexec/gitexec.go:18-123 (ExecWithCache, execToFile, newGzipFileCloser, headCommit): the output of a command is
    kept in a file of the repository; the file is written under another name and then renamed.  The package is exported; nothing in the
    repository calls the function.

    Simplifications: the directory of the cache exists or can be made; opening, creating and renaming files works (writing may fail,
    see [run]); gzip and the hash function are parameters.  [Files]: what the paths of the cache hold. *)
From Verif.Model Require Import Base GoStrings CommitMeta.

(** headCommit (gitexec.go:112-123): what "git rev-parse HEAD" printed, if it has 40 bytes, whether git worked or not. *)
Definition head_commit (printed : bytes) : bytes := let res := trim_space printed in if length res =? 40 then res else [].
(** hashString(...)[0:32] (gitexec.go:26,107-110); [hash]: SHA-256 in hexadecimal.  casheVersion is "1" (gitexec.go:19). *)
Definition cache_key (hash : bytes -> bytes) (args : list bytes) (head : bytes) : bytes :=
  take 32 (hash (B "1" ++ B "@" ++ join (B "@") args ++ head)).
(** loc and loc+".tmp" (gitexec.go:28,46), below the directory of the cache. *)
Definition loc_of (key : bytes) : bytes := key ++ B ".txt.gz".
Definition tmp_of (key : bytes) : bytes := key ++ B ".txt.gz.tmp".

(** The operations on files. *)
Inductive op := Create (p : bytes) | Append (p chunk : bytes) | Rename (p q : bytes).
Notation files := (gmap bytes bytes).
Definition empty_file : bytes := [].
(** The content of a file; of one that is not there, nothing. *)
Definition text_at (d : files) (p : bytes) : bytes := match d !! p with Some c => c | None => [] end.
Definition apply_op (d : files) (x : op) : files :=
  match x with
  | Create p => <[p := empty_file]> d
  | Append p chunk => <[p := (text_at d p ++ chunk : bytes)]> d
  | Rename p q => match d !! p with Some c => <[q := c]> (delete p d) | None => d end
  end.
Definition apply_all (d : files) (xs : list op) : files := fold_left apply_op xs d.

(** How a command ended: [chunks] are what gzip wrote before the command ended; [ok]: the command worked; [rest]: what gw.Close
    (gitexec.go:97, deferred, its error is dropped) and f.Close still wrote. *)
Record run := Run { ru_chunks : list bytes; ru_ok : bool; ru_rest : list bytes }.

Section Cached.
Context (hash : bytes -> bytes) (gunzip : bytes -> option bytes).
(** What a call does to the files (gitexec.go:30-51): nothing if the file is there. *)
Definition cached_ops (d : files) (key : bytes) (r : run) : list op :=
  match d !! loc_of key with
  | Some _ => []
  | None => Create (tmp_of key) :: map (Append (tmp_of key)) (ru_chunks r ++ ru_rest r) ++ (if ru_ok r then [Rename (tmp_of key) (loc_of key)] else [])
  end.
(** What a call returns, once read to its end (gitexec.go:30-60,76-85). *)
Definition cached_result (d : files) (key : bytes) (r : run) : outcome bytes :=
  match d !! loc_of key with
  | Some _ => match gunzip (text_at d (loc_of key)) with Some x => Ret x | None => Err (B "unexpected EOF") end
  | None => if ru_ok r then match gunzip (text_at (apply_all d (cached_ops d key r)) (loc_of key)) with Some x => Ret x | None => Err (B "unexpected EOF") end
            else Err (B "can't write git command output to file")
  end.
End Cached.

(** ** Two calls at a time

    The same with open files: a name stands for a file (a number), and a file that was created again while it is being written is cut off
    under the writer (gitexec.go:87-105).  A call writes its text in chunks, each at its own offset. *)
Record disk := Disk { dk_names : gmap bytes nat; dk_data : gmap nat bytes; dk_next : nat }.
Definition data_of (d : disk) (i : nat) : bytes := match dk_data d !! i with Some c => c | None => [] end.
Definition write_at (d : bytes) (off : nat) (chunk : bytes) : bytes :=
  take off d ++ repeat "000"%char (off - length d) ++ chunk ++ drop (off + length chunk) d.
(** Where a call is. *)
Inductive cstep :=
| SOpen                                          (* gitexec.go:30 *)
| SCreate                                        (* 88 *)
| SWrite (file off : nat) (chunks : list bytes)  (* 96-99, and the deferred Close *)
| SRename                                        (* 51 *)
| SOpen2                                         (* 58 *)
| SRead (file : nat)                             (* the caller reads what was returned *)
| SGot (data : bytes)
| SErr.
Section Two.
Context (key : bytes) (chunks : list bytes).
Definition one_step (d : disk) (s : cstep) : option (disk * cstep) :=
  match s with
  | SOpen => match dk_names d !! loc_of key with Some i => Some (d, SRead i) | None => Some (d, SCreate) end
  | SCreate => match dk_names d !! tmp_of key with
      | Some i => Some (Disk (dk_names d) (<[i := empty_file]> (dk_data d)) (dk_next d), SWrite i 0 chunks)
      | None => Some (Disk (<[tmp_of key := dk_next d]> (dk_names d)) (<[dk_next d := empty_file]> (dk_data d)) (S (dk_next d)), SWrite (dk_next d) 0 chunks) end
  | SWrite i off (c :: cs) => Some (Disk (dk_names d) (<[i := write_at (data_of d i) off c]> (dk_data d)) (dk_next d), SWrite i (off + length c) cs)
  | SWrite i off [] => Some (d, SRename)
  | SRename => match dk_names d !! tmp_of key with
      | Some i => Some (Disk (<[loc_of key := i]> (delete (tmp_of key) (dk_names d))) (dk_data d) (dk_next d), SOpen2)
      | None => Some (d, SErr) end
  | SOpen2 => match dk_names d !! loc_of key with Some i => Some (d, SRead i) | None => Some (d, SErr) end
  | SRead i => Some (d, SGot (data_of d i))
  | SGot _ | SErr => None
  end.
(** A schedule: which of the two calls takes the next step. *)
Fixpoint two_calls (sched : list bool) (d : disk) (a b : cstep) : disk * cstep * cstep :=
  match sched with
  | [] => (d, a, b)
  | true :: r => match one_step d a with Some (d', a') => two_calls r d' a' b | None => two_calls r d a b end
  | false :: r => match one_step d b with Some (d', b') => two_calls r d' a b' | None => two_calls r d a b end
  end.
End Two.
