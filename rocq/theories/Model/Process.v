(** * history3/process: blame data of every commit, from the patch log

    /repo/ripsrc/history3/process/process.go and /repo/ripsrc/history3/process/repo/repo.go.
    Blame pointers are values here (C08 shows that blame data is never changed in place; the sharing of pointers is
    modelled in Model/Checkpoint.v).  Logging and the clock are not modelled; [Timing] is in Model/Timing.v. *)
From Verif.Model Require Import Base GoStrings IncBlame LogParser ParentsGraph.

(** ** Repo (repo/repo.go) *)

(** repo.go:12 (type Repo): commit -> path -> blame. *)
Notation files := (gmap bytes blame).
Notation repo := (gmap bytes (gmap bytes blame)).

(** repo.go:69-71 (AddCommit) *)
Definition add_commit (r : repo) (h : bytes) : repo := <[ h := ∅ ]> r.
(** repo.go:73-79 (GetCommitMust) *)
Definition get_commit_must (r : repo) (h : bytes) : outcome files :=
  match r !! h with Some fs => Ret fs | None => Panic (B "commit not found") end.
(** repo.go:81-87 (GetFileOptional); a nil pointer is [None]. *)
Definition get_file_optional (r : repo) (h p : bytes) : outcome (option blame) :=
  do fs <- get_commit_must r h; Ret (fs !! p).
(** repo.go:89-99 (GetFileMust) *)
Definition get_file_must (r : repo) (h p : bytes) : outcome blame :=
  do fs <- get_commit_must r h;
  match fs !! p with Some b => Ret b | None => Err (B "file is missing in commit") end.
(** The assignment s.repo[h][p] = b; the commit's map always exists at that point (process.go:352,496). *)
Definition set_file (r : repo) (h p : bytes) (b : blame) : repo := <[ h := <[ p := b ]> (default ∅ (r !! h)) ]> r.

(** process.go:78-81 (type Result) *)
Record result := Result { r_commit : bytes; r_files : files }.

(** ** processRegularCommit (process.go:337-480) *)

(** process.go:358-455: one change.  [slow] is slowGitBlame (process.go:765-779): [git blame] of a file in a commit.
    The second test of an empty path (process.go:388-390) is unreachable; the [case 2] panic (process.go:433-434) likewise,
    after process.go:348-350. *)
Definition regular_change (slow : bytes -> bytes -> outcome blame) (hash : bytes) (parents : list bytes)
    (st : repo * files) (ch : bytes) : outcome (repo * files) :=
  let '(r, res) := st in
  do d <- parse ch;
  let path := d_path d in
  let prev := d_prev d in
  if d_binary d then
    let bl := blame_binary_file hash in
    if bool_decide (path = []) then Ret (r, <[ prev := bl ]> res)
    else Ret (set_file r hash path bl, <[ path := bl ]> res)
  else if bool_decide (path = []) then Ret (r, <[ prev := Blame hash [] false ]> res)
  else
    do whole <- (if bool_decide (prev <> []) && bool_decide (prev <> path) then
                   match parents with
                   | [p] => match d_hunks d with
                            | [] => do pb <- get_file_must r p prev; Ret (if b_binary pb then Some pb else None)
                            | _ => Ret None
                            end
                   | _ => Panic (B "rename with more than 1 parent (merge) not supported")
                   end
                 else Ret None);
    match whole with
    | Some pb => Ret (set_file r hash path pb, <[ path := pb ]> res)
    | None =>
        do pb <- (if bool_decide (prev = []) then Ret None
                  else match parents with
                       | [] => Ret None
                       | [p] => get_file_optional r p prev
                       | _ => Panic (B "merge passed to regular commit processing")
                       end);
        do bl <- match pb with
                 | None => apply blame_zero d hash
                 | Some b => if b_binary b then slow hash path else apply b d hash
                 end;
        Ret (set_file r hash path bl, <[ path := bl ]> res)
    end.

(** process.go:457-479: the loop copies, for each file of the parent that was not in the diff, the parent's blame.
    Every key is treated once and independently of the others, so the iteration order cannot matter; the loop is
    written as a union of maps. *)
Definition copy_unchanged (r : repo) (hash : bytes) (res fs : files) : repo :=
  <[ hash := filter (fun kv : bytes * blame => res !! kv.1 = None) fs ∪ default ∅ (r !! hash) ]> r.

Definition process_regular (slow : bytes -> bytes -> outcome blame) (r : repo) (parents : list bytes) (c : lcommit)
  : outcome (repo * result) :=
  match parents with
  | _ :: _ :: _ => Panic (B "not a regular commit")
  | _ =>
      do x <- ofold (regular_change slow (lc_hash c) parents) (add_commit r (lc_hash c), ∅) (lc_changes c);
      let '(r1, res) := x in
      match parents with
      | p :: _ => do fs <- get_commit_must r1 p; Ret (copy_unchanged r1 (lc_hash c) res fs, Result (lc_hash c) res)
      | [] => Ret (r1, Result (lc_hash c) res)
      end
  end.

(** ** processMergeCommit (process.go:484-763) *)

(** The orders in which the runtime iterates the maps: the parts (process.go:514), the changed files (process.go:542) and
    the files of the parents (process.go:692). *)
Record orders := Orders {
  o_parts : list (bytes * lcommit) -> list (bytes * lcommit);
  o_files : list bytes -> list bytes;
  o_rest : list bytes -> list bytes }.

(** process.go:482 *)
Definition deleted_prefix : bytes := B "@@@del@@@".

(** process.go:509-512, and the lookup in process.go:528: 0 for an unknown id. *)
Definition par_ord (parents : list bytes) : gmap bytes nat :=
  foldl (fun m (x : nat * bytes) => <[ x.2 := x.1 ]> m) ∅ (imap pair parents).

(** process.go:516-530: one change of one part. *)
Definition add_diff (parents : list bytes) (par : bytes) (m : gmap bytes (list (option diff))) (ch : bytes)
  : outcome (gmap bytes (list (option diff))) :=
  do d <- parse ch;
  let key := if bool_decide (d_path d <> []) then d_path d else deleted_prefix ++ d_prev d in
  let ds := default (replicate (length parents) None) (m !! key) in
  let i := default 0 (par_ord parents !! par) in
  if decide (i < length ds) then Ret (<[ key := <[ i := Some d ]> ds ]> m) else Panic (B "index out of range").

(** process.go:514-531 *)
Definition collect_diffs (parents : list bytes) (parts : list (bytes * lcommit)) : outcome (gmap bytes (list (option diff))) :=
  ofold (fun m (pc : bytes * lcommit) => ofold (add_diff parents pc.1) m (lc_changes pc.2)) ∅ parts.

(** process.go:576-594: number of binary blames among the old versions. *)
Definition bin_parents (r : repo) (pds : list (bytes * option diff)) : outcome (list bool) :=
  omapM (fun pd : bytes * option diff =>
           match pd.2 with
           | None => Ret false
           | Some d => if bool_decide (d_prev d = []) then Ret false
                       else do pb <- get_file_must r pd.1 (d_prev d); Ret (b_binary pb)
           end) pds.

(** process.go:623-634: the first parent without a diff that has the file. *)
Fixpoint first_same (r : repo) (k : bytes) (pds : list (bytes * option diff)) : outcome (option blame) :=
  match pds with
  | [] => Ret None
  | (p, None) :: rest => do o <- get_file_optional r p k;
                         match o with Some b => Ret (Some b) | None => first_same r k rest end
  | (_, Some _) :: rest => first_same r k rest
  end.

(** process.go:636-663 *)
Definition merge_parents (r : repo) (k : bytes) (pds : list (bytes * option diff)) : outcome (list blame) :=
  omapM (fun pd : bytes * option diff =>
           match pd.2 with
           | None => do o <- get_file_optional r pd.1 k;
                     match o with Some b => Ret b | None => Panic (B "merge: no change for file recorded, but parent does not contain file") end
           | Some d => if bool_decide (d_prev d = []) then Ret blame_zero else get_file_must r pd.1 (d_prev d)
           end) pds.

(** process.go:543-677: one file; what is stored under [k] and what is reported.  The accumulated maps are not read, so
    they are not parameters. *)
Definition merge_file (r : repo) (hash : bytes) (parents : list bytes) (k : bytes) (ds : list (option diff))
  : outcome (option blame * option (bytes * blame)) :=
  if forallb (fun o : option diff => match o with Some d => bool_decide (d_path d = []) | None => true end) ds then
    if decide (length deleted_prefix <= length k)
    then Ret (None, Some (drop (length deleted_prefix) k, Blame hash [] false))
    else Panic (B "slice bounds out of range")
  else
    let pds := zip parents ds in
    do bins <- bin_parents r pds;
    if existsb (fun o : option diff => match o with Some d => d_binary d | None => false end) ds || existsb id bins then
      let bl := blame_binary_file hash in Ret (Some bl, Some (k, bl))
    else
      do same <- first_same r k pds;
      match same with
      | Some b => Ret (Some b, None)
      | None =>
          do pbs <- merge_parents r k pds;
          do bl <- apply_merge pbs (map (default diff_zero) ds) hash;
          Ret (Some bl, Some (k, bl))
      end.

(** process.go:541-678: the loop over all changed files. *)
Definition merge_step_file (hash : bytes) (parents : list bytes) (diffs : gmap bytes (list (option diff)))
    (st : repo * files) (k : bytes) : outcome (repo * files) :=
  let '(r, res) := st in
  do e <- merge_file r hash parents k (default [] (diffs !! k));
  Ret (match e.1 with Some b => set_file r hash k b | None => r end,
       match e.2 with Some (p, b) => <[ p := b ]> res | None => res end).

(** process.go:682-688: the files of all parents. *)
Definition parent_files (r : repo) (parents : list bytes) : outcome (list bytes) :=
  do fss <- omapM (get_commit_must r) parents; Ret (remove_dups (concat (map (fun fs : files => (map_to_list fs).*1) fss))).

(** process.go:692-760: one file of the parents.  With one candidate the code takes it, with several the last one. *)
Definition merge_step_rest (hash : bytes) (parents : list bytes) (r : repo) (f : bytes) : outcome repo :=
  do mine <- get_file_optional r hash f;
  match mine with
  | Some _ => Ret r
  | None =>
      do os <- omapM (fun p => get_file_optional r p f) parents;
      match last (omap id os) with
      | Some b => Ret (set_file r hash f b)
      | None => Panic (B "no file candidates")
      end
  end.

Definition process_merge (o : orders) (r : repo) (parents : list bytes) (hash : bytes) (parts : gmap bytes lcommit)
  : outcome (repo * result) :=
  do diffs <- collect_diffs parents (o_parts o (map_to_list parts));
  do x <- ofold (merge_step_file hash parents diffs) (add_commit r hash, ∅) (o_files o ((map_to_list diffs).*1));
  do fs <- parent_files x.1 parents;
  do r2 <- ofold (merge_step_rest hash parents) x.1 (o_rest o fs);
  Ret (r2, Result hash x.2).

(** ** Trimming (process.go:221-236, repo.go:101-124) *)

(** repo.go:113 *)
Definition max_commits_in_checkpoint : nat := 1000.
(** repo.go:115-123 (Unload); the list, most recent first. *)
Definition unload (q : list bytes) (r : repo) (c : bytes) : list bytes * repo :=
  let q1 := c :: q in
  if decide (max_commits_in_checkpoint < length q1)
  then (removelast q1, match last q1 with Some x => delete x r | None => r end)
  else (q1, r).

(** process.go:221-231; the size statistic is not modelled. *)
Definition trim_one (children : graph) (st : gmap bytes nat * (list bytes * repo)) (p : bytes)
  : gmap bytes nat * (list bytes * repo) :=
  let n := S (default 0 (st.1 !! p)) in
  (<[ p := n ]> st.1,
   if decide (n = length (default [] (children !! p))) then unload st.2.1 st.2.2 p else st.2).
Definition trim (children : graph) (parents : list bytes) (st : gmap bytes nat * (list bytes * repo))
  : gmap bytes nat * (list bytes * repo) := foldl (trim_one children) st parents.

(** ** The loop of Run (process.go:130-219) *)

(** What the run depends on: Graph.Parents and Graph.Children, slowGitBlame, and the iteration orders used for each merge. *)
Record env := Env {
  e_parents : graph; e_children : graph; e_slow : bytes -> bytes -> outcome blame; e_orders : bytes -> orders }.
Definition env_parents (e : env) (c : bytes) : list bytes := default [] (e_parents e !! c).

(** process.go:25-46 (type Process), with the results sent on the channel so far. *)
Record pst := PSt {
  s_repo : repo; s_unload : list bytes; s_done : gmap bytes nat;
  s_mcommit : bytes; s_mparts : gmap bytes lcommit;
  s_last : bytes; s_out : list result }.

(** process.go:107-128,149: the state before the first commit, given the repository read from the checkpoint or a new one. *)
Definition pst_init (r : repo) : pst := PSt r [] ∅ [] ∅ [] [].

(** process.go:264-265 and 274-276: trim and send. *)
Definition finish_commit (e : env) (s : pst) (c : bytes) (r : repo) (res : result) : pst :=
  let t := trim (e_children e) (env_parents e c) (s_done s, (s_unload s, r)) in
  PSt t.2.2 t.2.1 t.1 (s_mcommit s) ∅ c (s_out s ++ [res]).

(** process.go:269-277 (processGotMergeParts): an error becomes a panic. *)
Definition got_merge_parts (e : env) (s : pst) : pst * outcome unit :=
  let c := s_mcommit s in
  match process_merge (e_orders e c) (s_repo s) (env_parents e c) c (s_mparts s) with
  | Ret (r, res) => (finish_commit e s c r res, Ret tt)
  | Err m | Panic m => (s, Panic m)
  end.

(** process.go:253-267: a commit that does not continue a merge. *)
Definition new_commit (e : env) (s : pst) (c : lcommit) : pst * outcome unit :=
  let ps := env_parents e (lc_hash c) in
  if decide (1 < length ps) then
    (PSt (s_repo s) (s_unload s) (s_done s) (lc_hash c) {[ lc_from c := c ]} (s_last s) (s_out s), Ret tt)
  else
    match process_regular (e_slow e) (s_repo s) ps c with
    | Ret (r, res) => (finish_commit e s (lc_hash c) r res, Ret tt)
    | Err m => (s, Err m)
    | Panic m => (s, Panic m)
    end.

(** process.go:238-267 (processCommit), with commit.Parents set by process.go:189. *)
Definition process_commit (e : env) (s : pst) (c : lcommit) : pst * outcome unit :=
  if decide (s_mparts s = ∅) then new_commit e s c
  else if bool_decide (s_mcommit s = lc_hash c) then
    (PSt (s_repo s) (s_unload s) (s_done s) (s_mcommit s) (<[ lc_from c := c ]> (s_mparts s)) (s_last s) (s_out s), Ret tt)
  else match got_merge_parts e s with
       | (s1, Ret _) => new_commit e s1 c
       | x => x
       end.

Fixpoint process_commits (e : env) (s : pst) (cs : list lcommit) : pst * outcome unit :=
  match cs with
  | [] => (s, Ret tt)
  | c :: r => match process_commit e s c with
              | (s', Ret _) => process_commits e s' r
              | x => x
              end
  end.

(** process.go:180-199: all commits of the log, then the parts of a final merge. *)
Definition process_log (e : env) (s : pst) (cs : list lcommit) : pst * outcome unit :=
  match process_commits e s cs with
  | (s', Ret _) => if decide (s_mparts s' = ∅) then (s', Ret tt) else got_merge_parts e s'
  | x => x
  end.
