(** * A call of Branches, from the answers of git

    Models /repo/ripsrc/branches.go:13-47 and /repo/ripsrc/branches2/process.go:105-151 with the git commands they run; the goroutines
    from there on are those of Model/BranchPool.v.  A new object is meant (for later calls on it see Model/Session.v).

    Simplification: if the list of branches cannot be parsed the program ends before anything is received (in the code, after the default
    branch's record may have been received). *)
From Verif.Model Require Import Base GoStrings GoSort IncBlame ParentsGraph Process CommitMeta Branches BranchMeta Net BranchPool LogArgs Api.

(** /repo/ripsrc/branchmeta/default.go:30,42 *)
Definition head_name_args : list bytes := [B "rev-parse"; B "--abbrev-ref"; B "HEAD"].
Definition head_commit_args : list bytes := [B "rev-parse"; B "HEAD"].
(** /repo/ripsrc/branchmeta/branchmeta.go:96-100 *)
Definition default_name_args : list bytes := [B "symbolic-ref"; B "--short"; B "HEAD"].
(** /repo/ripsrc/branches2/process.go:106 *)
Definition roots_args : list bytes := [B "rev-list"; B "--max-parents=0"; B "HEAD"].
(** /repo/ripsrc/branchmeta/branchmeta.go:35-44 *)
Definition refs_args (use_origin : bool) : list bytes :=
  [B "for-each-ref"; B "--format"; B "%(objectname)@@@%(refname:short)@@@%(committerdate)"; if use_origin then B "refs/remotes/origin" else B "refs/heads"].

(** The options of /repo/ripsrc/ripsrc.go:16-55 Branches uses: AllBranches is in [bo_run]. *)
Record branch_opts := BranchOpts { bo_run : ropts; bo_origin : bool; bo_prs : list bytes }.

Section BranchesApi.
Context {T : Type} (parse_date : bytes -> option T) (sha : bytes -> bytes).
Context (graph_order : graph -> list (bytes * list bytes)) (pr_order : list bytes -> list bytes) (rng : item -> list bytes -> list bytes).
Context (git : bound -> list bytes -> outcome bytes) (repo_dir : bytes) (o : branch_opts) (cpus : nat).

Record bsetup := BSetup { bs_pre : option bytes; bs_default : outcome (option branch); bs_names : outcome (list item); bs_graph : graph * graph; bs_head : bytes }.
(** branches.go:15-28 and process.go:116-151; [Panic]: the program ends. *)
Definition branches_setup : outcome bsetup :=
  if negb (ro_all (bo_run o)) then Ret (BSetup (Some (B "Branches call is only allowed when AllBranches=true")) (Ret None) (Ret []) (∅, ∅) [])
  else match (do _ <- prepare git repo_dir; read_graph graph_order git (bo_run o)) with
  | Panic x => Panic x
  | Err x => Ret (BSetup (Some x) (Ret None) (Ret []) (∅, ∅) [])
  | Ret g =>
      match get_default (git NoContext head_name_args) (git NoContext head_commit_args) with
      | Panic x => Panic x
      | Err x => Ret (BSetup None (Err x) (Ret []) (∅, ∅) [])  (* the graph is not used any more *)
      | Ret (name, head) =>
          let record := do first <- first_commit (git NoContext roots_args); do b <- default_record sha g.1 name head first; Ret (Some b) in
          match names_and_hashes (branch_get parse_date (bo_origin o) false (git NoContext default_name_args) (fun u => git NoContext (refs_args u))) with
          | Panic x => match record with Ret _ => Panic x | r => Ret (BSetup None r (Ret []) g head) end
          | names => Ret (BSetup None record names g head)
          end
      end
  end.

(** The goroutines of Branches: Model/BranchPool.v. *)
Definition names_error (s : bsetup) : option bytes := match bs_names s with Err x => Some x | _ => None end.
Definition names_list (s : bsetup) : list item := match bs_names s with Ret l => l | _ => [] end.
Definition work_on (s : bsetup) (i : item) : outcome (option branch) :=
  branch_info (rng i) sha (bs_graph s).1 (bs_graph s).2 (bs_head s) i.1 i.2.
Definition branches_workers : nat := workers_for cpus 0.
Definition branches_act (s : bsetup) : blocal -> action bchan bvalue blocal :=
  bact (bs_default s) (names_error s) (work_on s) (work_items pr_order false (names_list s) (bo_prs o)) branches_workers.
Definition branches_start (s : bsetup) : config bchan blocal := branches_call (bs_pre s) branches_workers.
End BranchesApi.
