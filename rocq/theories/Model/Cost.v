(** * How much work the algorithms on the commit graph do

    The closures of Model/Branches.v and the search of Model/HistoryGraph.v once more, with a counter: how often [rec], or markReach, is called.
    What else is done in such a call is a loop over the commit's parents. *)
From Verif.Model Require Import Base GoStrings GoSort ParentsGraph Branches HistoryGraph.

(** [dfs] of Model/Branches.v: /repo/ripsrc/branches2/branch_commits.go:18-27,44-62,69-89, behind_branch.go:9-21,36-48, process.go:194-208. *)
Fixpoint dfs_c (fuel : nat) (next : bytes -> option (list bytes)) (a : list bytes * nat) (h : bytes) : outcome (list bytes * nat) :=
  let '(acc, n) := a in
  if decide (h ∈ acc) then Ret (acc, S n)
  else match fuel with
       | 0 => Panic (B "out of fuel")
       | S f => match next h with
                | None => Panic (B "commit not found in tree")
                | Some ps => ofold (dfs_c f next) (h :: acc, S n) ps
                end
       end.
(** [has_deep]: /repo/ripsrc/branches2/branch_commits.go:103-119 *)
Fixpoint has_deep_c (fuel : nat) (g : graph) (cs : list bytes) (s : gmap bytes bool * nat) (h : bytes) : outcome (gmap bytes bool * nat * bool) :=
  let '(st, n) := s in
  match st !! h with
  | Some r => Ret (st, S n, r)
  | None =>
      match fuel with
      | 0 => Panic (B "out of fuel")
      | S f =>
          do r <- ofold (fun (a : gmap bytes bool * nat * bool) p =>
                           do x <- has_deep_c f g cs a.1 p; Ret (x.1, a.2 || x.2))
                        (<[ h := false ]> st, S n, bool_decide (h ∈ cs)) (gparents g h);
          Ret (<[ h := r.2 ]> r.1.1, r.1.2, r.2)
      end
  end.
(** /repo/ripsrc/branches2/branch_commits.go:97-144 *)
Definition dedup_linear_c (rng : list bytes -> list bytes) (g : graph) (commits : list bytes) (head : bytes) (n : nat) : outcome (list bytes * nat) :=
  let set := remove_dups commits in
  do r <- has_deep_c (graph_fuel g) g set (∅, n) head;
  let deep p := default false (r.1.1 !! p) in
  let dup h := existsb deep (gparents g h) in
  Ret (sort_strings (filter (fun c => dup c = false) (rng set)), r.1.2).
(** /repo/ripsrc/branches2/branch_commits.go:32-95 *)
Definition branch_commits_c (rng : list bytes -> list bytes) (g : graph) (d : bytes) (R : list bytes) (b : bytes) (n : nat) : outcome (list bytes * list bytes * nat) :=
  do R' <- (if decide (b ∈ R)
            then dfs_c (graph_fuel g) (fun h => if decide (h = b) then Some [] else g !! h) ([], n) d
            else Ret (R, n));
  do commits <- dfs_c (graph_fuel g) (fun h => (fun ps => filter (fun p => p ∉ R'.1) (rev ps)) <$> g !! h) ([], R'.2) b;
  let from := concat (map (fun h => filter (fun p => p ∈ R'.1) (rev (gparents g h))) commits.1) in
  do bf <- dedup_linear_c rng g from b commits.2;
  Ret (commits.1, bf.1, bf.2).
(** /repo/ripsrc/branches2/behind_branch.go:5-51 *)
Definition behind_branch_c (g : graph) (R : list bytes) (b d : bytes) (n : nat) : outcome (nat * nat) :=
  do rfb <- dfs_c (graph_fuel g) (fun h => Some (if decide (h ∈ R) then [] else gparents g h)) ([], n) b;
  do done <- dfs_c (graph_fuel g) (fun h => Some (if decide (h ∈ rfb.1) then [] else gparents g h)) ([], rfb.2) d;
  Ret (length (filter (fun h => h ∉ rfb.1) done.1), done.2).
(** /repo/ripsrc/branches2/process.go:228-265, after :137; the second number: the calls. *)
Definition process_branch_c (rng : list bytes -> list bytes) (sha : bytes -> bytes) (g ch : graph) (d : bytes) (R : list bytes)
    (name head : bytes) (n : nat) : outcome (option branch * nat) :=
  let pr := bool_decide (name = []) in
  if pr && bool_decide (g !! head = None) then Ret (None, n)
  else
    do cf <- branch_commits_c rng g d R head n;
    let '(commits, from, n) := cf in
    let id := if pr then [] else branch_id sha name from in
    do m <- (if decide (head ∈ R) then do mc <- get_merge_commit ch R head; Ret (true, mc, 0, n)
             else match from with
                  | [] => Ret (false, [], 0, n)
                  | _ => do k <- behind_branch_c g R head d n; Ret (false, [], k.1, k.2)
                  end);
    let '(merged, mc, behind, n) := m in
    match commits with
    | [] => Panic (B "index out of range")
    | c0 :: _ => Ret (Some (Branch id name pr head false merged mc from commits behind (length commits) c0), n)
    end.
(** /repo/ripsrc/branches2/process.go:137 and 167: the default branch's commits and one branch. *)
Definition branch_info_c (rng : list bytes -> list bytes) (sha : bytes -> bytes) (g ch : graph) (d name head : bytes) : outcome (option branch * nat) :=
  do R <- dfs_c (graph_fuel g) (fun h => Some (gparents g h)) ([], 0) d; process_branch_c rng sha g ch d R.1 name head R.2.
(** /repo/ripsrc/branches2/process.go:191-212 *)
Definition get_all_commits_c (g : graph) (head : bytes) : outcome (list bytes * nat) :=
  dfs_c (graph_fuel g) (fun h => (fun ps => rev ps) <$> g !! h) ([], 0) head.

(** /repo/ripsrc/history3/process/graph/graph.go:30-46: how often markReach is called. *)
Fixpoint lcp_level_c (g : graph) (n : nat) (reached : gmap bytes (gset nat)) (curr ntr : list trace) (k : nat)
  : (bytes + (gmap bytes (gset nat) * list trace)) * nat :=
  match curr with
  | [] => (inr (reached, ntr), k)
  | tr :: r =>
      let '(reached', dn) := mark_reach n reached tr in
      if dn then (inl tr.2, S k)
      else lcp_level_c g n reached' r (ntr ++ map (pair tr.1) (default [] (g !! tr.2))) (S k)
  end.
Fixpoint lcp_loop_c (fuel : nat) (g : graph) (n : nat) (reached : gmap bytes (gset nat)) (curr : list trace) (k : nat) : outcome bytes * nat :=
  match fuel with
  | 0 => (Panic (B "still running"), k)
  | S f => match lcp_level_c g n reached curr [] k with
           | (inl c, k) => (Ret c, k)
           | (inr (_, []), k) => (Panic (B "all roots reached"), k)
           | (inr (reached', ntr), k) => lcp_loop_c f g n reached' ntr k
           end
  end.
Definition last_common_parent_c (fuel : nat) (g : graph) (heads : list bytes) : outcome bytes * nat :=
  lcp_loop_c fuel g (length heads) ∅ (imap pair heads) 0.
