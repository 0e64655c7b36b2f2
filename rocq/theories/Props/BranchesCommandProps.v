(** * C91: what the command branches prints *)
From Verif.Model Require Import Base GoStrings GoSort IncBlame ParentsGraph Process CommitMeta Branches BranchMeta Net BranchPool GitRepos LogArgs Api BranchesApi Commands CodeCommand BranchesCommand.
From Verif.Spec Require Import Text GitLog CommitGraph Selection Refs BranchDelivery BranchAnswers Failing Discovery CommandLine CodePrinting BranchPrinting.
From Verif.Proofs Require Import TextLemmas GraphExamples ProcessExamples SelectionProofs BranchProofs BranchPoolProofs ApiProofs BranchesApiProofs NetFinal CodeCommandProofs BranchesCommandProofs.
From Verif.Props Require Import GraphProps RefProps BranchPoolProps GitReposProps CommandProps SelectionProps ApiProps BranchesApiProps.
From Coq Require Import Lia.

Section C91.
Context {T : Type} (parse_date : bytes -> option T) (sha : bytes -> bytes) (cpus : nat).
Context (graph_order : path -> graph -> list (bytes * list bytes)) (pr_order : path -> list bytes -> list bytes) (rng : path -> BranchPool.item -> list bytes -> list bytes).
Context (t : node) (root : bytes) (head : path -> bytes) (has works : path -> bool) (git : path -> bound -> list bytes -> outcome bytes) (dir : path -> bytes).
Context (R : path -> gitrepo) (dname : path -> bytes) (refs : path -> list ref).
Notation may p := (branches_may_end parse_date sha (graph_order p) (pr_order p) (rng p) (git p) (dir p) cpus).

Context (Hcpu : 0 < cpus) (Hgo : forall p g, graph_order p g ≡ₚ map_to_list g) (Hpo : forall p, any_order (pr_order p)) (Hrng : forall p i, any_order (rng p i)).

(** One repository. *)
Lemma one_branches_repo p hd : branches_ready parse_date (R p) (dname p) (refs p) (git p) (works p) hd ->
  (exists e, may p e) /\ forall e, may p e -> exists err, e = Done (printed_of e) 0 err /\
    if works p then err = None /\ exists bs, branches_listed sha (R p) (dname p) (refs p) bs /\ Forall2 shows_branch bs (printed_of e)
    else is_Some err /\ forall i, i ∈ printed_of e -> bi_name i = dname p.
Proof.
  intros [HU HA _]. destruct (works p).
  - destruct (C80_branches_call_partial parse_date sha (graph_order p) (pr_order p) (rng p) (git p) (dir p) branches_command_opts cpus (R p) (dname p) (refs p) HU HA eq_refl Hcpu (Hgo p) (Hpo p) (Hrng p))
      as (s & Es & Hk & Hall). split.
    { apply (some_end parse_date sha (graph_order p) (pr_order p) (rng p) (git p) (dir p) cpus s Es (bounded_final _ _ Hk)). intros c Hf Hc. destruct (Hall c Hc) as [_ Hfin]. destruct (Hfin Hf) as (_ & b0 & recs & shas & Hr & _). by eexists. }
    intros e He. apply (ends_of_runs parse_date sha (graph_order p) (pr_order p) (rng p) (git p) (dir p) cpus s (fun c => branches_listed sha (R p) (dname p) (refs p) (branches_received c)) (fun oc => oc = Ret tt) Es) in He.
    + destruct He as (c & oc & HQ & -> & ->). exists None. cbn [branches_finish printed_of]. split; [reflexivity|]. split; [reflexivity|]. exists (branches_received c). split; [exact HQ|apply branch_lines_show].
    + intros c Hc. destruct (Hall c Hc) as [Hn Hfin]. split; [exact Hn|]. intros Hf. destruct (Hfin Hf) as (_ & b0 & recs & shas & Hr & G1 & G2 & G3 & G4 & G5 & _ & _ & G8 & G9 & G10).
      split; [|by exists (Ret tt)]. exists b0, recs. split; [exact G1|]. split; [exact G2|]. split; [exact G3|]. split; [exact G4|]. split; [exact G5|]. split; [|exact G10].
      assert (shas = []) as ->. { destruct shas as [|x shas]; [done|]. destruct G8 as [_ G8]. destruct (proj1 (G8 x) ltac:(left)) as [Hx _]. by apply elem_of_nil in Hx. }
      rewrite app_nil_r in G9. exact G9.
  - destruct HA as (git0 & cmd & HA & HM & Hcmd & Hf & Hg).
    destruct (C81_failed_commands_partial parse_date sha (graph_order p) (pr_order p) (rng p) git0 (git p) (dir p) branches_command_opts cpus (R p) (dname p) (refs p) cmd HU HA eq_refl Hcpu (Hgo p) (Hpo p) (Hrng p) HM Hcmd Hf Hg)
      as (s & Es & Hk & Hall). split.
    { apply (some_end parse_date sha (graph_order p) (pr_order p) (rng p) (git p) (dir p) cpus s Es (bounded_final _ _ Hk)). intros c Hfi Hc. destruct (Hall c Hc) as (_ & _ & Hfin). destruct (Hfin Hfi) as (_ & x & Hr). by eexists. }
    intros e He. apply (ends_of_runs parse_date sha (graph_order p) (pr_order p) (rng p) (git p) (dir p) cpus s (fun c => forall b, b ∈ branches_received c -> br_name b = dname p) (fun oc => exists x, oc = Err x) Es) in He.
    + destruct He as (c & oc & HQ & [x ->] & ->). exists (Some x). cbn [branches_finish printed_of]. split; [reflexivity|]. split; [by eexists|].
      intros i Hi. apply elem_of_list_In, in_map_iff in Hi as (b & <- & Hb%elem_of_list_In). cbn [branch_line bi_name]. by apply HQ.
    + intros c Hc. destruct (Hall c Hc) as (Hn & Hb & Hfin). split; [exact Hn|]. intros Hfi. split; [intros b Hbin; by apply Hb|]. destruct (Hfin Hfi) as (_ & x & Hr). exists (Err x). split; [exact Hr|by eexists].
Qed.

(** C91: for every directory that can be read, with repositories in it or one level down, each empty, or answering as documented, or with a failing command
    (but not the one that reads the graph), every schedule and order of maps: the command prints, repository after repository, a line for the default branch and then
    one for each other branch of origin, that shows its right record; nothing, or the default branch's line, where a command fails; these errors are printed at the end. *)
Theorem C91_branches_command_partial :
  is_dir t -> accessible t -> listed_in_order t ->
  (forall p, repo_within t root 1 p -> has p = false -> without_commits (head p)) ->
  (forall p, repo_within t root 1 p -> has p = true -> branches_ready parse_date (R p) (dname p) (refs p) (git p) (works p) (head p)) ->
  exists repos, (forall p, p ∈ repos <-> repo_within t root 1 p) /\ NoDup repos /\ (forall i j p q, i < j -> repos !! i = Some p -> repos !! j = Some q -> path_lt p q) /\
    (forall p, p ∈ repos -> has p = true -> exists e, may p e) /\
    forall ends, (forall p, p ∈ repos -> has p = true -> may p (ends p)) -> exists err,
      prints t root head ends =
        (concat (map (fun p => printed_of (ends p)) (filter (fun p => has p = true) repos)),
         Some (ending (length repos) (length (filter (fun p => has p = false) repos)) 0 (errors_of err (filter (fun p => has p = true) repos)))) /\
      forall p, p ∈ repos -> has p = true ->
        if works p then err p = None /\ exists bs, branches_listed sha (R p) (dname p) (refs p) bs /\ Forall2 shows_branch bs (printed_of (ends p))
        else is_Some (err p) /\ forall i, i ∈ printed_of (ends p) -> bi_name i = dname p.
Proof.
  intros Hd Ha Hl Hno Hyes.
  assert (Hh : forall p, repo_within t root 1 p -> has_head_commit head p = has p).
  { intros p Hp. destruct (has p) eqn:E; [|by apply without_commits_has, Hno]. destruct (Hyes p Hp E) as [HU _ Hhd]. apply with_commits_has. exists (g_head (R p)).
    destruct (bu_head _ _ _ _ HU) as [Hi Hlen]. split; [by apply (bu_ids _ _ _ _ HU)|]. split; [exact Hlen|exact Hhd]. }
  destruct (C56_found_partial t root 1 Hd Ha Hl) as (repos & E & H1 & H2 & H3). exists repos. split; [exact H1|]. split; [exact H2|]. split; [exact H3|]. split.
  { intros p Hp Hhas. apply (one_branches_repo p (head p)). apply Hyes; [by apply H1|exact Hhas]. }
  intros ends He.
  assert (Hone : forall p, p ∈ repos -> has p = true -> exists err, ends p = Done (printed_of (ends p)) 0 err /\
    if works p then err = None /\ exists bs, branches_listed sha (R p) (dname p) (refs p) bs /\ Forall2 shows_branch bs (printed_of (ends p))
    else is_Some err /\ forall i, i ∈ printed_of (ends p) -> bi_name i = dname p).
  { intros p Hp Hhas. apply (one_branches_repo p (head p)); [apply Hyes; [by apply H1|exact Hhas]|by apply He]. }
  set (err := fun p => match ends p with Done _ _ e => e | Crashed _ => None end).
  assert (Hdone : forall p, p ∈ repos -> has p = true -> ends p = Done (printed_of (ends p)) 0 (err p)).
  { intros p Hp Hhas. destruct (Hone p Hp Hhas) as (x & Hx & _). unfold err. rewrite Hx at 3. exact Hx. }
  exists err. split.
  - destruct (command_ends_at (A := branch_item) t root head has Hh (fun p => printed_of (ends p)) (fun _ => 0) err repos E H1) as [K4 _].
    rewrite (K4 ends Hdone). do 3 f_equal. clear K4. induction (filter (fun p => has p = true) repos) as [|q l IH]; [done|exact IH].
  - intros p Hp Hhas. destruct (Hone p Hp Hhas) as (x & Hx & HP). replace (err p) with x; [exact HP|]. unfold err. by rewrite Hx.
Qed.

(** If the command that reads the graph fails in one repository, the whole command ends there, with a panic, in every schedule: nothing is said at
    the end, and all that is printed is what was printed for repositories before it. *)
Theorem C91_graph_log_refuted p git0 :
  is_dir t -> accessible t -> listed_in_order t ->
  (forall p, repo_within t root 1 p -> if has p then with_commits (head p) else without_commits (head p)) ->
  repo_within t root 1 p -> has p = true -> branches_usable parse_date (R p) (dname p) (refs p) -> branch_answers (R p) (dname p) (refs p) true git0 ->
  may_fail git0 (git p) -> fails (git p) graph_command -> (forall x, git p x [B "rev-parse"; B "HEAD"] = git0 x [B "rev-parse"; B "HEAD"]) ->
  exists pre post, (forall q, q ∈ pre ++ p :: post <-> repo_within t root 1 q) /\ NoDup (pre ++ p :: post) /\
    (forall i j q q', i < j -> (pre ++ p :: post) !! i = Some q -> (pre ++ p :: post) !! j = Some q' -> path_lt q q') /\
    forall ends, (forall q, repo_within t root 1 q -> has q = true -> may q (ends q)) ->
      (prints t root head ends).2 = None /\
      forall x, x ∈ (prints t root head ends).1 -> exists q, q ∈ pre /\ has q = true /\ x ∈ printed_of (ends q).
Proof.
  intros Hd Ha Hl Hh Hp Hhas HU HA HM Hf Hhd.
  destruct (C81_graph_command_refuted parse_date sha (graph_order p) git0 (git p) (dir p) branches_command_opts (R p) (dname p) (refs p) HU HA eq_refl HM Hf Hhd) as [m Hm].
  assert (Hh' : forall p, repo_within t root 1 p -> has_head_commit head p = has p).
  { intros q Hq. specialize (Hh q Hq). destruct (has q); [by apply with_commits_has|by apply without_commits_has]. }
  destruct (command_ends (A := branch_item) t root head has Hd Ha Hl Hh' (fun _ => []) (fun _ => 0) (fun _ => None)) as (repos & H1 & H2 & H3 & _ & H4).
  assert (Hin : p ∈ repos) by (by apply H1). apply elem_of_list_split in Hin as (pre & post & ->). exists pre, post. split; [exact H1|]. split; [exact H2|]. split; [exact H3|].
  intros ends He. apply (H4 ends pre p post eq_refl Hhas). specialize (He p Hp Hhas). unfold branches_may_end in He. by rewrite Hm in He.
Qed.
End C91.
Print Assumptions C91_branches_command_partial.
Print Assumptions C91_graph_log_refuted.

(** ** The directory of C56: "app" is the repository of C80's example, "lib.git" is empty. *)
Definition bc_has (p : path) : bool := bool_decide (p <> [B "lib.git"]).
Definition bc_head (p : path) : bytes := if bc_has p then qb ++ [NL] else B "HEAD" ++ [NL].
Example C91_hypotheses_hold :
  is_dir ex_src /\ accessible ex_src /\ listed_in_order ex_src /\ repo_within ex_src (B "src") 1 [B "app"] /\ repo_within ex_src (B "src") 1 [B "lib.git"] /\
  (forall p, if bc_has p then with_commits (bc_head p) else without_commits (bc_head p)) /\
  (forall p, bc_has p = true -> branches_ready Some q_repo (B "master") q_refs (q_branch_git true) true (bc_head p)) /\
  (forall p cmd, bc_has p = true -> cmd ∈ branch_commands true -> cmd <> graph_command -> branches_ready Some q_repo (B "master") q_refs (failing cmd (q_branch_git true)) false (bc_head p)) /\
  (may_fail (q_branch_git true) (failing graph_command (q_branch_git true)) /\ fails (failing graph_command (q_branch_git true)) graph_command /\
   forall x, failing graph_command (q_branch_git true) x [B "rev-parse"; B "HEAD"] = q_branch_git true x [B "rev-parse"; B "HEAD"]).
Proof.
  destruct C56_hypotheses_hold as (H1 & H2 & H3 & H4 & _). destruct C80_hypotheses_hold as [HU HA].
  destruct (C56_found_partial ex_src (B "src") 1 H1 H2 H3) as (calls & Ec & Hc & _). rewrite H4 in Ec. injection Ec as <-.
  split; [exact H1|]. split; [exact H2|]. split; [exact H3|]. split; [apply Hc; left|]. split; [apply Hc; right; left|].
  assert (Hb : forall p, bc_has p = true -> bc_head p = g_head q_repo ++ [NL]) by (intros p Hp; unfold bc_head; by rewrite Hp).
  split.
  { intros p. destruct (bc_has p) eqn:E; [rewrite (Hb p E)|unfold bc_head; by rewrite E]. exists (g_head q_repo). destruct (bu_head _ _ _ _ HU) as [Hi Hlen]. split; [by apply (bu_ids _ _ _ _ HU)|]. split; [exact Hlen|reflexivity]. }
  split; [intros p Hp; split; [exact HU|exact (HA true)|by apply Hb]|].
  assert (Hany : forall cmd, may_fail (q_branch_git true) (failing cmd (q_branch_git true)) /\ fails (failing cmd (q_branch_git true)) cmd /\
     forall x args, args <> cmd -> failing cmd (q_branch_git true) x args = q_branch_git true x args).
  { intros cmd. split; [|split].
    - intros x args. unfold failing. destruct (decide (args = cmd)); [right; by eexists|by left].
    - intros x. unfold failing. rewrite decide_True by done. by eexists.
    - intros x args N. unfold failing. by rewrite decide_False by done. }
  split.
  - intros p cmd Hp Hcmd Hn. destruct (Hany cmd) as (M1 & M2 & M3). split; [exact HU| |by apply Hb]. exists (q_branch_git true), cmd. split; [exact (HA true)|]. split; [exact M1|]. split; [exact Hcmd|]. split; [exact M2|].
    intros x. apply M3. by apply not_eq_sym.
  - destruct (Hany graph_command) as (M1 & M2 & M3). split; [exact M1|]. split; [exact M2|]. intros x. by apply M3.
Qed.
