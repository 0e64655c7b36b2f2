(** * C80: a call of Branches, from the answers of git *)
From Verif.Model Require Import Base GoStrings GoSort IncBlame ParentsGraph Process CommitMeta Branches BranchMeta Net BranchPool LogArgs Api BranchesApi.
From Verif.Spec Require Import Text GitLog CommitGraph Selection Refs BranchDelivery BranchAnswers Failing.
From Verif.Proofs Require Import ProcessExamples BranchProofs BranchMore BranchPoolProofs BranchRun GraphExamples SelectionProofs ApiProofs BranchesApiProofs.
From Verif.Props Require Import GraphProps RefProps BranchPoolProps SelectionProps ApiProps.
From Coq Require Import Lia.

Theorem C80_branches_call_partial {T} parse_date sha graph_order pr_order rng git repo_dir o cpus R dname refs :
  @branches_usable T parse_date R dname refs -> branch_answers R dname refs (bo_origin o) git -> ro_all (bo_run o) = true -> 0 < cpus ->
  (forall g, graph_order g ≡ₚ map_to_list g) -> any_order pr_order -> (forall i, any_order (rng i)) ->
  exists s, branches_setup parse_date sha graph_order git repo_dir o = Ret s /\
  let act := branches_act sha pr_order rng o cpus s in
  (exists k, forall j c, nsteps (step act) j (branches_start cpus s) c -> j <= k) /\
  forall c, rtc (step act) (branches_start cpus s) c ->
    ~ crashing act c /\
    (final act c -> branches_ended c /\ exists b0 recs shas, branches_returned c = Some (Ret tt) /\ branches_received c = b0 :: recs /\
      (** the default branch *)
      br_name b0 = dname /\ br_head b0 = g_head R /\ br_default b0 = true /\ lists_exactly (br_commits b0) (reaches (g_parents R) (g_head R)) /\
      last (br_commits b0) = Some (g_head R) /\
      (forall x, (forall y, reaches (g_parents R) (g_head R) y /\ parents (g_parents R) y = [] <-> y = x) -> br_first b0 = x) /\
      (** one record for each other branch and each pull request head of the repository *)
      lists_exactly shas (fun x => x ∈ bo_prs o /\ exists t, (t = g_head R \/ t ∈ g_tips R) /\ reaches (g_parents R) t x) /\
      map (fun r => (br_name r, br_head r)) recs ≡ₚ
        map (fun r => (rf_name r, rf_commit r)) (filter (fun r => rf_name r <> dname /\ rf_name r <> B "HEAD") refs) ++ map (fun x => ([], x)) shas /\
      Forall (branch_right sha (g_parents R) (g_head R)) recs).
Proof.
  intros HU HA Hall Hcpu Hgo Hpo Hrng. destruct HU as [U1 U2 U3 U4 [U5 U6] U7 [U8 [U8b U9]] [U10 U11] U12 U13].
  destruct (branch_facts parse_date graph_order git repo_dir o R dname refs ltac:(by split) HA Hall) as (cs & names & Hnd & Hsel & Hin & Hcl & Hd & Hpc & Hpd & Hread & Hprep & Hdef & Enames & Hperm & Hnames).
  destruct HA as [A1 A2 A3 _ (roots & Hroots & A5) A6].
  set (g := g_parents R) in *. set (d := g_head R) in *. set (gp := part g cs) in *. set (es := graph_order gp) in *.
  assert (Hn : 0 < branches_workers cpus) by (unfold branches_workers, workers_for; rewrite decide_True by done; lia).
  destruct (C22_default_branch_commits sha gp dname d (trim_space (unlines roots)) (complete_closed gp d Hpc Hpd)) as (b0 & E0 & F1 & (lf & F2) & F3 & F4 & F5 & F6 & _).
  exists (BSetup None (Ret (Some b0)) (Ret names) (gp, children_from_parents es) d). split.
  { unfold branches_setup. rewrite Hall, Hprep. cbn [negb obind]. rewrite Hread, Hdef. cbv zeta. rewrite Enames. unfold roots_args. rewrite A5. cbn [first_commit obind fst]. rewrite E0. done. }
  cbv zeta. unfold branches_act, branches_start, work_on, names_error, names_list. cbn [bs_pre bs_default bs_names bs_graph bs_head fst snd].
  set (info := fun i : item => branch_info (rng i) sha gp (children_from_parents es) d i.1 i.2).
  destruct (records_of_items rng sha gp es d Hrng (Hgo gp) Hpc Hpd pr_order names (bo_prs o) Hpo Hnames) as (Hw & _).
  destruct (C23_every_schedule (Some b0) info (work_items pr_order false names (bo_prs o)) (branches_workers cpus) Hn Hw) as [Hterm Hrun].
  destruct (C23_every_branch_once rng pr_order sha gp es d dname (trim_space (unlines roots)) names (bo_prs o) (branches_workers cpus) Hn Hrng Hpo (Hgo gp) Hpc Hpd Hnames) as (b0' & E0' & _ & _ & _ & Honce).
  rewrite E0 in E0'. injection E0' as <-.
  split; [exact Hterm|]. intros c Hc. destruct (Hrun c Hc) as (Hcr & _ & _ & Hfin). split; [exact Hcr|]. intros Hf. destruct (Hfin Hf) as [Hend Hret]. split; [exact Hend|].
  destruct (Honce c Hc _ Hret) as (_ & recs & shas & G1 & G2 & G3 & G4). exists b0, recs, shas.
  split; [exact Hret|]. split; [exact G1|]. split; [exact F5|]. split; [exact F4|]. split; [exact F3|].
  split; [apply (lists_ext _ _ _) with (2 := F1); intros x; by apply part_reaches|]. split; [rewrite F2; apply last_snoc|]. split.
  { intros x Hx. rewrite F6. destruct Hroots as [R1 R2]. assert (roots = [x]) as ->.
    { apply Permutation_singleton_r. apply NoDup_Permutation; [exact R1|apply NoDup_singleton|]. intros y. rewrite R2, Hx. by rewrite elem_of_list_singleton. }
    assert (Hxr : reaches g d x) by (by apply Hx). unfold unlines. cbn [map concat]. rewrite app_nil_r. apply (trim_id x). apply U3. exact (complete_closed g d U1 U5 x Hxr). }
  split.
  { apply (lists_ext _ _ _) with (2 := G2). intros x. rewrite <- Hsel. split; intros [H1 H2]; (split; [exact H1|]); by apply (part_some g cs Hnd Hin). }
  split; [rewrite G3; by apply Permutation_app_tail|].
  apply Forall_forall. intros r Hr. destruct (G4 r Hr) as (Er & _ & _).
  assert (Hb : br_head r ∈ cs).
  { assert (Hx : (br_name r, br_head r) ∈ names ++ map (fun s => ([], s)) shas).
    { rewrite <- G3. apply elem_of_list_In, (in_map (fun r => (br_name r, br_head r))), elem_of_list_In. exact Hr. }
    apply (part_some g cs Hnd Hin). apply elem_of_app in Hx as [Hx|Hx].
    - rewrite Forall_forall in Hnames. exact (proj2 (Hnames _ Hx)).
    - apply elem_of_list_In, in_map_iff in Hx as (s & [= _ <-] & Hs%elem_of_list_In). by apply G2. }
  apply (part_right g cs Hnd Hin Hcl); [exact Hd|exact Hb|]. unfold info in Er. cbn [fst snd] in Er.
  apply (info_right (rng (br_name r, br_head r)) sha gp es d (br_name r) (br_head r) r); [apply Hrng|apply Hgo|exact Hpc|by apply part_acyclic|exact Hpd|by apply part_some| |exact Er].
  intros Hnil. apply elem_of_list_fmap in Hnil as ([k v] & E & Hk). cbn in E. subst k. apply elem_of_map_to_list in Hk.
  assert (Hi : is_Some (gp !! [])) by (by eexists). apply (part_some g cs Hnd Hin) in Hi. destruct (U3 [] (Hin _ Hi)) as [Hx _]. done.
Qed.
Print Assumptions C80_branches_call_partial.

(** When a command of git fails, the call returns an error: the caller has at most the record of the default branch.  Left out: the
    command that reads the graph, see below. *)
Theorem C81_failed_commands_partial {T} parse_date sha graph_order pr_order rng git git' repo_dir o cpus R dname refs cmd :
  @branches_usable T parse_date R dname refs -> branch_answers R dname refs (bo_origin o) git -> ro_all (bo_run o) = true -> 0 < cpus ->
  (forall g, graph_order g ≡ₚ map_to_list g) -> any_order pr_order -> (forall i, any_order (rng i)) ->
  may_fail git git' -> cmd ∈ branch_commands (bo_origin o) -> fails git' cmd -> (forall x, git' x graph_command = git x graph_command) ->
  exists s, branches_setup parse_date sha graph_order git' repo_dir o = Ret s /\
  let act := branches_act sha pr_order rng o cpus s in
  (exists k, forall j c, nsteps (step act) j (branches_start cpus s) c -> j <= k) /\
  forall c, rtc (step act) (branches_start cpus s) c ->
    ~ crashing act c /\
    (forall b, b ∈ branches_received c -> br_default b = true /\ br_name b = dname /\ br_head b = g_head R) /\
    (final act c -> branches_ended c /\ exists e, branches_returned c = Some (Err e)).
Proof.
  intros HU HA Hall Hcpu Hgo Hpo Hrng HM Hcmd Hfail Hgraph.
  destruct (branch_facts parse_date graph_order git repo_dir o R dname refs HU HA Hall) as (cs & names & Hnd & Hsel & Hin & Hcl & Hd & Hpc & Hpd & Hread & Hprep & Hdef & Enames & Hperm & Hnames).
  destruct HA as [A1 A2 A3 (gcs & _ & A4) (roots & Hroots & A5) A6]. unfold head_name_args, head_commit_args in Hdef.
  set (gp := part (g_parents R) cs) in *.
  assert (Hn : 0 < branches_workers cpus) by (unfold branches_workers, workers_for; rewrite decide_True by done; lia).
  destruct (C22_default_branch_commits sha gp dname (g_head R) (trim_space (unlines roots)) (complete_closed gp _ Hpc Hpd)) as (b0 & E0 & _ & _ & F3 & F4 & F5 & _).
  assert (Hread' : read_graph graph_order git' (bo_run o) = Ret (gp, children_from_parents (graph_order gp))).
  { rewrite <- Hread. unfold read_graph, exec_piped, graph_log_args, graph_revs. rewrite Hall. cbn [app]. change [B "log"; B "-m"; B "--reverse"; B "--no-abbrev-commit"; B "--pretty=format:%H@%P"; B "--all"] with graph_command.
    by rewrite Hgraph. }
  assert (Hs : exists s e, branches_setup parse_date sha graph_order git' repo_dir o = Ret s /\
    (bs_pre s = Some e \/ (bs_pre s = None /\ (bs_default s = Err e \/ exists r, bs_default s = Ret r /\ names_error s = Some e))) /\
    (bs_default s = Ret None \/ bs_default s = Ret (Some b0) \/ exists x, bs_default s = Err x)).
  { unfold branches_setup. rewrite Hall. cbn [negb]. unfold prepare at 1, head_id. unfold prepare, head_id in Hprep.
    destruct (HM NoContext [B "rev-parse"; B "HEAD"]) as [M1|[e M1]]; rewrite M1.
    2: { eexists _, _. split; [reflexivity|]. split; [left; reflexivity|by left]. }
    rewrite Hprep. cbn [obind]. rewrite Hread'. unfold head_name_args, head_commit_args. rewrite M1.
    destruct (HM NoContext [B "rev-parse"; B "--abbrev-ref"; B "HEAD"]) as [M2|[e M2]]; rewrite M2.
    2: { eexists _, _. split; [reflexivity|]. split; [right; split; [reflexivity|left; reflexivity]|right; right; by eexists]. }
    rewrite Hdef. cbv zeta. cbn [fst]. unfold default_name_args, roots_args.
    assert (Hrec : (git' NoContext [B "rev-list"; B "--max-parents=0"; B "HEAD"] = Ret (unlines roots) /\ (do first <- first_commit (git' NoContext [B "rev-list"; B "--max-parents=0"; B "HEAD"]); do b <- default_record sha gp dname (g_head R) first; Ret (Some b)) = Ret (Some b0)) \/
      exists e, (do first <- first_commit (git' NoContext [B "rev-list"; B "--max-parents=0"; B "HEAD"]); do b <- default_record sha gp dname (g_head R) first; Ret (Some b)) = Err e).
    { destruct (HM NoContext [B "rev-list"; B "--max-parents=0"; B "HEAD"]) as [M5|[e M5]]; rewrite M5; [left|right; by exists e]. rewrite A5. split; [reflexivity|].
      cbn [first_commit obind]. rewrite E0. reflexivity. }
    unfold default_name_args in Enames.
    assert (Hnm : (git' NoContext [B "symbolic-ref"; B "--short"; B "HEAD"] = git NoContext [B "symbolic-ref"; B "--short"; B "HEAD"] /\ git' NoContext (refs_args (bo_origin o)) = git NoContext (refs_args (bo_origin o)) /\
        names_and_hashes (branch_get parse_date (bo_origin o) false (git' NoContext [B "symbolic-ref"; B "--short"; B "HEAD"]) (fun u => git' NoContext (refs_args u))) = Ret names) \/
      exists e, names_and_hashes (branch_get parse_date (bo_origin o) false (git' NoContext [B "symbolic-ref"; B "--short"; B "HEAD"]) (fun u => git' NoContext (refs_args u))) = Err e).
    { destruct (HM NoContext [B "symbolic-ref"; B "--short"; B "HEAD"]) as [M3|[e M3]]; rewrite M3; [|right; by exists e].
      unfold branch_get in *. destruct (default_name (git NoContext [B "symbolic-ref"; B "--short"; B "HEAD"])) as [dn|e|e]; cbn [obind] in *; [|right; by exists e|discriminate Enames].
      destruct (HM NoContext (refs_args (bo_origin o))) as [M6|[e M6]]; rewrite M6; [|right; by exists e]. left. split; [done|]. split; [done|exact Enames]. }
    destruct Hrec as [[M5 Hrec]|[e Hrec]]; rewrite Hrec.
    - destruct Hnm as [(M3 & M6 & Hnm)|[e Hnm]]; rewrite Hnm.
      + exfalso. destruct (Hfail NoContext) as [e Hf]. unfold branch_commands in Hcmd.
        assert (Hg : git' NoContext cmd = git NoContext cmd /\ exists out, git NoContext cmd = Ret out).
        { rewrite !elem_of_cons, elem_of_nil in Hcmd. destruct Hcmd as [->|[->|[->|[->|[->|[->|[]]]]]]].
          - rewrite M1. split; [done|]. rewrite A1. by eexists.
          - rewrite M2. split; [done|]. rewrite A2. by eexists.
          - rewrite M3. split; [done|]. rewrite A3. by eexists.
          - rewrite Hgraph. split; [done|]. unfold graph_command. rewrite A4. by eexists.
          - rewrite M5, A5. split; [done|]. by eexists.
          - unfold refs_args in M6. rewrite M6. split; [done|]. rewrite A6. by eexists. }
        destruct Hg as [Hg [out Ho]]. rewrite Hg, Ho in Hf. discriminate Hf.
      + eexists _, e. split; [reflexivity|]. split; [right; split; [reflexivity|right; exists (Some b0); split; reflexivity]|right; by left].
    - destruct Hnm as [(M3 & M6 & Hnm)|[x Hnm]]; rewrite Hnm; eexists _, e; (split; [reflexivity|]); (split; [right; split; [reflexivity|left; reflexivity]|right; right; by eexists]). }
  destruct Hs as (s & e & Es & He & Hb). exists s. split; [exact Es|]. cbv zeta. unfold branches_act, branches_start.
  destruct (C23_errors_returned (bs_pre s) (bs_default s) (names_error s) (work_on sha rng s) (work_items pr_order false (names_list s) (bo_prs o)) (branches_workers cpus) e Hn He) as [H1 H2].
  { intros m Hm. rewrite Hm in Hb. destruct Hb as [?|[?|[? ?]]]; discriminate. }
  split; [exact H1|]. intros c Hc. destruct (H2 c Hc) as (G1 & G2 & _ & G4). split; [exact G1|]. split.
  - intros b Hbr. rewrite (G2 b Hbr) in Hb. destruct Hb as [[=]|[[= ->]|[? [=]]]]. split; [exact F3|]. split; [exact F5|exact F4].
  - intros Hf. destruct (G4 Hf) as [G5 G6]. split; [exact G5|]. by exists e.
Qed.
Print Assumptions C81_failed_commands_partial.

(** The command that reads the graph runs in a goroutine of its own: when it fails, no error is returned but the whole program ends. *)
Theorem C81_graph_command_refuted {T} parse_date sha graph_order git git' repo_dir o R dname refs :
  @branches_usable T parse_date R dname refs -> branch_answers R dname refs (bo_origin o) git -> ro_all (bo_run o) = true ->
  may_fail git git' -> fails git' graph_command -> (forall x, git' x [B "rev-parse"; B "HEAD"] = git x [B "rev-parse"; B "HEAD"]) ->
  exists m, branches_setup parse_date sha graph_order git' repo_dir o = Panic m.
Proof.
  intros HU HA Hall _ Hfail Hh.
  destruct (branch_facts parse_date graph_order git repo_dir o R dname refs HU HA Hall) as (cs & names & _ & _ & _ & _ & _ & _ & _ & _ & Hprep & _).
  assert (Hp : prepare git' repo_dir = Ret tt) by (rewrite <- Hprep; unfold prepare, head_id; by rewrite Hh).
  unfold branches_setup. rewrite Hall, Hp. cbn [negb obind]. unfold read_graph, exec_piped, graph_log_args, graph_revs. rewrite Hall. cbn [app].
  destruct (Hfail Background) as [e He]. unfold graph_command in He. rewrite He. cbn [obind]. by eexists.
Qed.
Print Assumptions C81_graph_command_refuted.

(** Without AllBranches the call returns an error, whatever git says: no command is run, nothing is received. *)
Theorem C80_without_all_branches {T} parse_date sha graph_order pr_order rng git repo_dir o cpus : ro_all (bo_run o) = false -> 0 < cpus ->
  exists s, @branches_setup T parse_date sha graph_order git repo_dir o = Ret s /\
  let act := branches_act sha pr_order rng o cpus s in
  (exists k, forall j c, nsteps (step act) j (branches_start cpus s) c -> j <= k) /\
  forall c, rtc (step act) (branches_start cpus s) c -> ~ crashing act c /\ branches_received c = [] /\
    (final act c -> branches_ended c /\ branches_returned c = Some (Err (B "Branches call is only allowed when AllBranches=true"))).
Proof.
  intros Hall Hcpu. assert (Hn : 0 < branches_workers cpus) by (unfold branches_workers, workers_for; rewrite decide_True by done; lia).
  unfold branches_setup. rewrite Hall. cbn [negb]. eexists. split; [reflexivity|]. cbv zeta. unfold branches_act, branches_start. cbn [bs_pre bs_default names_error bs_names].
  match goal with |- context[bact ?d ?ne ?w ?it ?n] => destruct (C23_errors_returned (Some (B "Branches call is only allowed when AllBranches=true")) d ne w it n _ Hn (or_introl eq_refl) ltac:(done)) as [H1 H2] end.
  split; [exact H1|]. intros c Hc. destruct (H2 c Hc) as (G1 & G2 & _ & G4). split; [exact G1|]. split; [|exact G4].
  destruct (branches_received c) as [|b l]; [done|]. discriminate (G2 b ltac:(left)).
Qed.
Print Assumptions C80_without_all_branches.

(** *** The repository of C77's example with its two branches; HEAD is at "master". *)
Definition q_refs : list ref := [Ref qb (B "master") (B "Tue Nov 27 21:55:36 2018 +0100"); Ref qc (B "topic") (B "Tue Nov 27 21:55:36 2018 +0100")].
Definition q_branch_git (remote : bool) (x : bound) (args : list bytes) : outcome bytes :=
  match args with
  | a :: rest =>
    if decide (a = B "symbolic-ref") then Ret (B "master" ++ [NL])
    else if decide (a = B "rev-list") then Ret (unlines [qa])
    else if decide (a = B "for-each-ref") then Ret (render_refs remote q_refs)
    else if decide (rest = [B "--abbrev-ref"; B "HEAD"]) then Ret (B "master" ++ [NL])
    else q_git x args
  | [] => Err []
  end.
Lemma q_branch_answers remote : branch_answers q_repo (B "master") q_refs remote (q_branch_git remote).
Proof.
  split.
  - intros x. reflexivity.
  - intros x. reflexivity.
  - intros x. reflexivity.
  - exists (q_shown true). split; [exact (q_shows true)|]. intros x. reflexivity.
  - exists [qa]. split; [split; [apply NoDup_singleton|]|intros x; reflexivity]. intros x. rewrite elem_of_list_singleton. split.
    + intros ->. split; [|reflexivity]. apply rtc_once. unfold parent. replace (parents q_parents qb) with [qa] by lk. left.
    + intros [Hr Hp]. change (reaches q_parents qb x) in Hr. destruct (q_reaches qb x ltac:(tauto) Hr) as [->| ->]; [|done].
      change (g_parents q_repo) with q_parents in Hp. replace (parents q_parents qb) with [qa] in Hp by lk. discriminate.
  - intros x. destruct remote; reflexivity.
Qed.
Example C80_hypotheses_hold : branches_usable Some q_repo (B "master") q_refs /\ (forall remote, branch_answers q_repo (B "master") q_refs remote (q_branch_git remote)).
Proof.
  split; [|exact q_branch_answers]. pose proof q_ids as Hids. rewrite Forall_forall in Hids. split.
  - destruct q_valid as [Hc _]. exact Hc.
  - exact q_acyclic.
  - intros c Hc. destruct (q_known c Hc) as [->|[->| ->]]; apply Hids; in_list.
  - intros c Hc. destruct (q_known c Hc) as [->|[->| ->]]; lk.
  - split; [exists [qa]; lk|reflexivity].
  - intros x Hx. change (x ∈ [qb; qc]) in Hx. rewrite !elem_of_cons, elem_of_nil in Hx. destruct Hx as [->|[->|[]]]; exists [qa]; lk.
  - split; [split; [done|reflexivity]|split; [apply TrimProofs.bare_solid; repeat (apply Forall_cons; split; [reflexivity|]); by apply Forall_nil|done]].
  - split; [|apply (bool_decide_unpack _); vm_compute; exact I].
    assert (Hdt : date_text (B "Tue Nov 27 21:55:36 2018 +0100")).
    { split; [apply (bool_decide_unpack _); vm_compute; exact I|]. split; [discriminate|]. apply bare_git_date. }
    assert (Hns : forall n, "@"%char ∉ n -> no_separator n).
    { intros n H. split; [intros x y ->|intros x ->]; apply H; apply elem_of_app; right; left. }
    apply Forall_cons_2; [|apply Forall_cons_2; [|apply Forall_nil_2]]; (split; [apply Hids; in_list|]); (split; [split; [done|reflexivity]|]); (split; [apply Hns; apply (bool_decide_unpack _); vm_compute; exact I|exact Hdt]).
  - intros r _. by eexists.
  - intros r Hr. change (rf_commit r ∈ [qb; qc]). unfold q_refs in Hr. rewrite !elem_of_cons, elem_of_nil in Hr. destruct Hr as [->|[->|[]]]; in_list.
Qed.
(** git on that repository, with one failing command. *)
Definition failing (cmd : list bytes) (git : bound -> list bytes -> outcome bytes) (x : bound) (args : list bytes) : outcome bytes := if decide (args = cmd) then Err (B "exit status 128") else git x args.
Example C81_hypotheses_hold : forall cmd, cmd ∈ branch_commands false ->
  may_fail (q_branch_git false) (failing cmd (q_branch_git false)) /\ fails (failing cmd (q_branch_git false)) cmd /\
  (cmd <> graph_command -> forall x, failing cmd (q_branch_git false) x graph_command = q_branch_git false x graph_command) /\
  (cmd = graph_command -> forall x, failing cmd (q_branch_git false) x [B "rev-parse"; B "HEAD"] = q_branch_git false x [B "rev-parse"; B "HEAD"]).
Proof.
  intros cmd _. split; [|split; [|split]].
  - intros x args. unfold failing. destruct (decide (args = cmd)); [right; by eexists|by left].
  - intros x. unfold failing. rewrite decide_True by done. by eexists.
  - intros N x. unfold failing. by rewrite decide_False by done.
  - intros -> x. unfold failing. by rewrite decide_False by done.
Qed.
