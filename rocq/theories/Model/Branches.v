(** * branches2: per-branch information from the commit graph

    /repo/ripsrc/branches2/branch_commits.go, behind_branch.go, merge_commit.go, process.go *)
From Verif.Model Require Import Base GoStrings GoSort ParentsGraph.

(** The closures [rec] of branch_commits.go:18-27,44-62,69-89, behind_branch.go:9-21,36-48 and process.go:194-208 all
    have the shape "return if done; mark done; for each successor: rec", with the loop over parents, in the order given
    by [next] ([None]: the "commit not found in tree" panic).  [acc] holds the commits marked done, latest first.
    Fuel bounds the recursion depth, which Go leaves to the stack; running out is a panic the proofs show unreachable. *)
Fixpoint dfs (fuel : nat) (next : bytes -> option (list bytes)) (acc : list bytes) (h : bytes) : outcome (list bytes) :=
  if decide (h ∈ acc) then Ret acc
  else match fuel with
       | 0 => Panic (B "out of fuel")
       | S f => match next h with
                | None => Panic (B "commit not found in tree")
                | Some ps => ofold (dfs f next) (h :: acc) ps
                end
       end.

(** Enough depth for any traversal of the graph: entries plus listed parents plus the start. *)
Definition graph_fuel (g : graph) : nat := S (length (map_to_list g) + length (concat ((map_to_list g).*2))).

Definition gparents (g : graph) (h : bytes) : list bytes := default [] (g !! h).

(** branch_commits.go:14-30 (newReachableFromHead); the map is the list of its keys. *)
Definition reachable_from_head (g : graph) (d : bytes) : outcome (list bytes) :=
  dfs (graph_fuel g) (fun h => Some (gparents g h)) [] d.

(** branch_commits.go:103-119: the closure of dedupLinearFromHead.  [st] merges the maps [done] and [hasDeep]: a
    commit being visited has hasDeep = false. *)
Fixpoint has_deep (fuel : nat) (g : graph) (cs : list bytes) (st : gmap bytes bool) (h : bytes) : outcome (gmap bytes bool * bool) :=
  match st !! h with
  | Some r => Ret (st, r)
  | None =>
      match fuel with
      | 0 => Panic (B "out of fuel")
      | S f =>
          do r <- ofold (fun (a : gmap bytes bool * bool) p =>
                           do x <- has_deep f g cs a.1 p; Ret (x.1, a.2 || x.2))
                        (<[ h := false ]> st, bool_decide (h ∈ cs)) (gparents g h);
          Ret (<[ h := r.2 ]> r.1, r.2)
      end
  end.

(** branch_commits.go:97-144 (dedupLinearFromHead).  [rng] is the order in which the runtime iterates the set. *)
Definition dedup_linear (rng : list bytes -> list bytes) (g : graph) (commits : list bytes) (head : bytes) : outcome (list bytes) :=
  let set := remove_dups commits in
  do r <- has_deep (graph_fuel g) g set ∅ head;
  let deep p := default false (r.1 !! p) in
  let dup h := existsb deep (gparents g h) in
  Ret (sort_strings (filter (fun c => dup c = false) (rng set))).

(** branch_commits.go:32-95 (branchCommits).  Commits is the reversal of the order of visits, which is [dfs]'s order.
    branchedFrom is collected per visited commit instead of interleaved with the visits; it is only used as a set
    (branch_commits.go:99). *)
Definition branch_commits (rng : list bytes -> list bytes) (g : graph) (d : bytes) (R : list bytes) (b : bytes)
  : outcome (list bytes * list bytes) :=
  do R' <- (if decide (b ∈ R)
            then dfs (graph_fuel g) (fun h => if decide (h = b) then Some [] else g !! h) [] d
            else Ret R);
  do commits <- dfs (graph_fuel g) (fun h => (fun ps => filter (fun p => p ∉ R') (rev ps)) <$> g !! h) [] b;
  let from := concat (map (fun h => filter (fun p => p ∈ R') (rev (gparents g h))) commits) in
  do bf <- dedup_linear rng g from b;
  Ret (commits, bf).

(** behind_branch.go:5-24 (reachableFromBranchStopOnDefault) *)
Definition reachable_stop (g : graph) (R : list bytes) (b : bytes) : outcome (list bytes) :=
  dfs (graph_fuel g) (fun h => Some (if decide (h ∈ R) then [] else gparents g h)) [] b.
(** behind_branch.go:26-51 (behindBranch) *)
Definition behind_branch (g : graph) (R : list bytes) (b d : bytes) : outcome nat :=
  do rfb <- reachable_stop g R b;
  do done <- dfs (graph_fuel g) (fun h => Some (if decide (h ∈ rfb) then [] else gparents g h)) [] d;
  Ret (length (filter (fun h => h ∉ rfb) done)).

(** merge_commit.go:5-16 (getMergeCommit) *)
Definition get_merge_commit (ch : graph) (R : list bytes) (b : bytes) : outcome bytes :=
  match (ch !! b : option (list bytes)) with
  | None => Panic (B "commit not found in tree")
  | Some cs => Ret (match filter (fun c : bytes => c ∈ R) cs with c :: _ => c | [] => [] end)
  end.

(** process.go:191-212 (getAllCommits) *)
Definition get_all_commits (g : graph) (head : bytes) : outcome (list bytes) :=
  dfs (graph_fuel g) (fun h => (fun ps => rev ps) <$> g !! h) [] head.

(** process.go:18-67 (type Branch) *)
Record branch := Branch {
  br_id : bytes; br_name : bytes; br_pr : bool; br_head : bytes; br_default : bool; br_merged : bool; br_merge_commit : bytes;
  br_from : list bytes; br_commits : list bytes; br_behind : nat; br_ahead : nat; br_first : bytes }.

(** process.go:267-282 (branchID); [sha] is hex(sha256(.)). *)
Definition branch_id (sha : bytes -> bytes) (name : bytes) (from : list bytes) : bytes :=
  sha (name ++ match from with x :: _ => x | [] => [] end).

(** process.go:228-265 (processBranch): the record sent on the channel, or [None] for a pull request head unknown to the
    graph.  It has no error return.  [g]/[ch] are the graph's Parents and Children, [d] the default branch head, [R] the
    map computed by process.go:137.  Logging is not modelled. *)
Definition process_branch (rng : list bytes -> list bytes) (sha : bytes -> bytes) (g ch : graph) (d : bytes) (R : list bytes)
    (name head : bytes) : outcome (option branch) :=
  let pr := bool_decide (name = []) in
  if pr && bool_decide (g !! head = None) then Ret None
  else
    do cf <- branch_commits rng g d R head;
    let '(commits, from) := cf in
    let id := if pr then [] else branch_id sha name from in
    do m <- (if decide (head ∈ R) then do mc <- get_merge_commit ch R head; Ret (true, mc, 0)
             else match from with
                  | [] => Ret (false, [], 0)
                  | _ => do n <- behind_branch g R head d; Ret (false, [], n)
                  end);
    let '(merged, mc, behind) := m in
    match commits with
    | [] => Panic (B "index out of range")
    | c0 :: _ => Ret (Some (Branch id name pr head false merged mc from commits behind (length commits) c0))
    end.

(** process.go:127-134: the default branch's record; [first] is the output of [git rev-list --max-parents=0 HEAD]. *)
Definition default_record (sha : bytes -> bytes) (g : graph) (name head first : bytes) : outcome branch :=
  do cs <- get_all_commits g head;
  Ret (Branch (branch_id sha name []) name false head true false [] [] cs 0 0 first).

(** process.go:137,167: one branch or pull request of a run over graph [g]/[ch] with default head [d]. *)
Definition branch_info (rng : list bytes -> list bytes) (sha : bytes -> bytes) (g ch : graph) (d name head : bytes)
  : outcome (option branch) :=
  do R <- reachable_from_head g d; process_branch rng sha g ch d R name head.
