(** * The command code: what it prints

    Models /repo/ripsrc/cmd/cmdcode/cmd.go:102-150 (runOnRepo) with the call of CodeByCommit it makes (Model/ApiByCommit.v), and the loop over the
    repositories with it (Model/Commands.v).
    Simplifications: colours, the time since the start, the timings and the progress messages of RunOnRepo are left out, and a line is kept as the
    list of what is in it; the lines of the library's own log are left out; the checkpoint is made in the repository, which is nowhere else used. *)
From Verif.Model Require Import Base GoStrings IncBlame LogParser ParentsGraph Process Msgp Checkpoint CheckpointFS CommitMeta FileInfo CodeInfo Net Pipeline GitBlame GitRepos LogArgs Api Callers ApiByCommit Commands.

(** /repo/ripsrc/cmd/cmdcode/cmd.go:127-130; [sha]: the flag --sha (/repo/cmd/root.go:25). *)
Definition code_command_opts (sha : bytes) : ropts := ROpts sha false true false.

(** The end of the work on one repository (runOnRepo): the function returns, having counted records, maybe with an error; or the program ends. *)
Inductive repo_end (A : Type) := Done (printed : list A) (entries : nat) (err : option bytes) | Crashed (printed : list A).
Arguments Done {A}. Arguments Crashed {A}.

Section CodeCommand.
Context {T L : Type}.
(** ** The lines printed for one repository *)

(** cmd.go:112 (Println), cmd.go:119 (Fprintf; the license by name and confidence), cmd.go:145 *)
Record rline := RLine { ln_repo : bytes; ln_sha : bytes; ln_file : bytes; ln_language : bytes; ln_license : option L; ln_numbers : list (bytes * Z);
  ln_skipped : bytes; ln_status : cstatus; ln_author : bytes }.
Inductive item := ICommit (sha : bytes) (date : T) | IRecord (l : rline) | IProcessed (n : nat).

(** /repo/ripsrc/commitmeta/commitmeta.go:68-74 *)
Definition author (c : mcommit T) : bytes := if decide (mc_author_name c <> []) then mc_author_name c else mc_author_email c.
(** cmd.go:113-120: the line of a record; SHA[0:8] and Files[...].Status can fail. *)
Definition record_line (dir : bytes) (r : bresult T L) : outcome rline :=
  if length (mc_sha (br_commit r)) <? 8 then Panic (B "slice bounds out of range") else
  do st <- printed_status r;
  Ret (RLine dir (take 8 (mc_sha (br_commit r))) (br_filename r) (br_language r) (br_license r) (printed_numbers r) (br_skipped r) st (author (br_commit r))).
(** What is printed, and whether printing went on to the end. *)
Fixpoint record_lines (dir : bytes) (rs : list (bresult T L)) : list item * bool :=
  match rs with
  | [] => ([], true)
  | r :: rs => match record_line dir r with Ret l => let '(ls, ok) := record_lines dir rs in (IRecord l :: ls, ok) | Err _ | Panic _ => ([], false) end
  end.
(** The loop of cmd.go:111-122 over the commits received so far. *)
Fixpoint commit_lines (dir : bytes) (got : list (mcommit T * list (bresult T L))) : list item * bool :=
  match got with
  | [] => ([], true)
  | (c, rs) :: got =>
      let '(ls, ok) := record_lines dir rs in
      if ok then let '(ls', ok') := commit_lines dir got in (ICommit (mc_sha c) (mc_date c) :: ls ++ ls', ok') else (ICommit (mc_sha c) (mc_date c) :: ls, false)
  end.
(** What the loop has received, from its state; it waits for every channel to be closed. *)
Definition in_hand (l : option (@clocal T L)) : list (mcommit T * list (bresult T L)) :=
  match l with Some (BC (CLoop g)) | Some (BC (CStop g)) | Some (BC (CGone g)) => g | Some (BC (CRecs _ _ c rs g)) => g ++ [(c, rs)] | _ => [] end.

(** ** The end of the work on one repository *)


Context (zero_time : T) (parse_date : bytes -> option T) (cl : classifiers L).
Context (count : bytes -> bytes -> bytes -> list (Z * line_type) * totals).
Context (orders : nat -> list (bytes * blame) -> list (bytes * blame)) (graph_order : graph -> list (bytes * list bytes)) (merge_orders : bytes -> Process.orders).
Context (skip : bytes -> pres unit) (sha : bytes).
(** One repository: its checkpoints, git, the temporary files, and its name. *)
Record place := Place { pl_disk : fs; pl_write_err : option bytes; pl_git : bound -> list bytes -> outcome bytes; pl_tmp : nat -> outcome bytes; pl_dir : bytes }.
Definition place_act (s : setup T) (x : place) : clocal -> action chan value clocal :=
  api_by_commit_act zero_time cl count orders merge_orders skip (pl_disk x) (pl_write_err x) (pl_git x) (code_command_opts sha) s (fun _ _ => None) None.
(** cmd.go:132-147: the error of CodeByCommit is returned; otherwise the number of records is printed. *)
Definition finish (items : list item) (n : nat) (oc : outcome unit) : repo_end item :=
  match oc with Ret _ => Done (items ++ [IProcessed n]) n None | Err e => Done items n (Some e) | Panic _ => Crashed items end.
(** [e] is a possible end of the work on the repository: some schedule leads to it. *)
Definition may_end (x : place) (e : repo_end item) : Prop :=
  match code_setup zero_time parse_date graph_order (pl_git x) (pl_tmp x) (pl_dir x) (code_command_opts sha) with
  | Ret s => exists c, rtc (step (place_act s x)) (api_by_commit_call s None) c /\
      let got := in_hand (locals c !! 3) in
      let '(items, ok) := commit_lines (pl_dir x) got in
      if ok then (crashing (place_act s x) c /\ exists printed, printed `prefix_of` items /\ e = Crashed printed) \/
                 (final (place_act s x) c /\ exists oc w, locals c !! 0 = Some (BL (LM (MStop oc w))) /\ e = finish items (length (concat (map snd got))) oc)
      else e = Crashed items
  | Err _ | Panic _ => e = Crashed []
  end.
End CodeCommand.
Arguments item : clear implicits.
Arguments rline : clear implicits.

(** ** All repositories, for the commands code and branches ([A]: what is printed) *)
Section All.
Context {A : Type} (t : node) (root : bytes) (head : path -> bytes) (ends : path -> repo_end A).
(** /repo/ripsrc/cmd/cmdcode/cmd.go:81-100, /repo/ripsrc/cmd/cmdbranches/cmd.go:74-96: one after the other; what is printed, and whether the program is still there. *)
Fixpoint on_repos (ps : list path) : list A * bool :=
  match ps with
  | [] => ([], true)
  | p :: ps =>
      if has_head_commit head p then
        match ends p with
        | Done it _ _ => let '(its, ok) := on_repos ps in (it ++ its, ok)
        | Crashed it => (it, false)
        end
      else on_repos ps
  end.
Definition counted (p : path) : nat * option bytes := match ends p with Done _ n e => (n, e) | Crashed _ => (0, None) end.
(** cmdcode/cmd.go:44-79, cmdbranches/cmd.go:40-72: what is printed for the repositories, and at the end with the exit status, unless the program was ended by a panic. *)
Definition prints : list A * option (list message * nat) :=
  let '(its, ok) := on_repos (s_done (run_on_dirs t root head counted).1) in (its, if ok then Some (command t root head counted) else None).
End All.
