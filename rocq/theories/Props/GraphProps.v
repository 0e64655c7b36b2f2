(** * Properties C11 (graph log), C12-C22, C25: the commit graph and branch information *)
From Verif.Model Require Import Base GoStrings GoSort ParentsGraph Branches HistoryGraph.
From Verif.Spec Require Import Text GitLog CommitGraph.
From Verif.Proofs Require Import SortLemmas Dfs ParentsGraphProofs BranchProofs BranchMore LastCommonParentProofs GraphExamples.
From Coq Require Import Lia.

(** ** C11, C12: reading the graph *)
Theorem C12_parents_recovered h :
  wf_history h -> Forall (fun l => (N.of_nat (length l) < 1000000)%N) (map graph_line h) ->
  exists m, pp_run (render_graph h) = Ret m /\ forall c ps, m !! c = Some ps <-> (c, ps) ∈ h.
Proof. exact (pp_run_render h). Qed.
Print Assumptions C12_parents_recovered.
Definition ex_history : list (bytes * list bytes) := [(B "a1", []); (B "b2", [B "a1"]); (B "c3", [B "b2"; B "a1"])].
Example C12_hypotheses_hold :
  wf_history ex_history /\ Forall (fun l => (N.of_nat (length l) < 1000000)%N) (map graph_line ex_history) /\
  render_graph ex_history = B "a1@" ++ [NL] ++ B "b2@a1" ++ [NL] ++ B "c3@b2 a1".
Proof.
  split_and!; [|repeat constructor|done]. split; [repeat constructor; done|].
  repeat (apply NoDup_cons; split; [cbn; set_solver|]). apply NoDup_nil_2.
Qed.

Theorem C11_graph_long_line_is_error h1 e h2 :
  wf_history (h1 ++ e :: h2) -> (1000000 <= N.of_nat (length (graph_line e)))%N ->
  exists err, pp_run (render_graph (h1 ++ e :: h2)) = Err err.
Proof. exact (pp_run_long h1 e h2). Qed.
Print Assumptions C11_graph_long_line_is_error.
Theorem C11_graph_never_truncated d m :
  pp_run d = Ret m -> Forall (fun l => (N.of_nat (length l) < 1000000)%N) (raw_lines d).
Proof. exact (pp_run_all_short d m). Qed.
Print Assumptions C11_graph_never_truncated.

(** ** C13 *)
Theorem C13_children_inverse (g : graph) es : es ≡ₚ map_to_list g ->
  let ch := children_from_parents es in
  (forall x, is_Some (ch !! x) <-> is_Some (g !! x) \/ exists c, parent g c x) /\
  (forall p l, ch !! p = Some l -> StronglySorted bytes_le l /\ forall c, times c l = times p (parents g c)).
Proof. exact (children_spec g es). Qed.
Print Assumptions C13_children_inverse.
Theorem C13_iteration_order_irrelevant (g : graph) es1 es2 : es1 ≡ₚ map_to_list g -> es2 ≡ₚ map_to_list g ->
  children_from_parents es1 = children_from_parents es2.
Proof. exact (children_order g es1 es2). Qed.
Print Assumptions C13_iteration_order_irrelevant.

(** ** C14 *)
Theorem C14_reachability_exact g d : exists R, reachable_from_head g d = Ret R /\ lists_exactly R (reaches g d).
Proof. exact (reachable_exact g d). Qed.
Print Assumptions C14_reachability_exact.
Definition cyclic_graph : graph := mk [("x", ["y"; "z"]); ("y", ["x"])]%string.
Example C14_cyclic_terminates : reachable_from_head cyclic_graph (B "x") = Ret [B "z"; B "y"; B "x"].
Proof. vm_compute. reflexivity. Qed.

(** ** C15 - C21: the record of a branch or pull request.

    Common hypotheses: the map iteration orders are arbitrary; the graph contains the parents of its commits, the default
    head [d] and the branch head [b]. *)
Theorem C15_unmerged_commits rng sha g es d b name : any_order rng -> es ≡ₚ map_to_list g ->
  complete g -> is_Some (g !! d) -> is_Some (g !! b) -> ~ reaches g d b ->
  exists br, branch_info rng sha g (children_from_parents es) d name b = Ret (Some br) /\
    lists_exactly (br_commits br) (fun x => reaches g b x /\ ~ reaches g d x) /\
    (exists l, br_commits br = l ++ [b]) /\ br_ahead br = length (br_commits br) /\ br_head br = b /\ br_name br = name.
Proof.
  intros H1 H2 H3 H4 H5 Hn. destruct (branch_info_spec rng sha g es d b name H1 H2 H3 H4 H5)
    as (br & Hbr & _ & B1 & B2 & _ & _ & _ & B3 & B4 & B5 & _ & _ & _ & B6 & _).
  exists br. split_and!; try done. split; [done|]. intros x. rewrite B6 by by right. unfold base. rewrite avoiding_unmerged by done.
  split; [intros [->|?]; [split; [apply rtc_refl|done]|done]|by right].
Qed.
Print Assumptions C15_unmerged_commits.

(** The outcome does not depend on map iteration orders at all. *)
Theorem C15_iteration_order_irrelevant rng rng' sha g es es' d b name :
  any_order rng -> any_order rng' -> es ≡ₚ map_to_list g -> es' ≡ₚ map_to_list g ->
  complete g -> is_Some (g !! d) -> is_Some (g !! b) ->
  branch_info rng' sha g (children_from_parents es') d name b = branch_info rng sha g (children_from_parents es) d name b.
Proof.
  intros H1 H1' H2 H2' H3 H4 H5. destruct (branch_info_spec rng sha g es d b name H1 H2 H3 H4 H5) as (br & Hbr & Hall & _).
  rewrite Hbr. by apply Hall.
Qed.
Print Assumptions C15_iteration_order_irrelevant.

Definition ex_graph : graph :=
  mk [("r0", []); ("m1", ["r0"]); ("b2", ["m1"]); ("m3", ["m1"]); ("b4", ["b2"; "m3"]); ("m5", ["m3"])]%string.
Definition ex_record (d b : string) : outcome (option branch) :=
  branch_info (fun l => l) (fun s => s) ex_graph (children_from_parents (map_to_list ex_graph)) (B d) (B "topic") (B b).
Example C15_hypotheses_hold :
  complete ex_graph /\ acyclic ex_graph /\ is_Some (ex_graph !! B "m5") /\ is_Some (ex_graph !! B "b4") /\
  ~ reaches ex_graph (B "m5") (B "b4") /\
  ex_record "m5" "b4" = Ret (Some (Branch (B "topicm1") (B "topic") false (B "b4") false false [] [B "m1"] [B "b2"; B "b4"] 1 2 (B "b2"))).
Proof.
  split_and!.
  - apply complete_check. vm_compute. reflexivity.
  - apply (acyclic_check rank_of). vm_compute. reflexivity.
  - apply is_key_check. vm_compute. reflexivity.
  - apply is_key_check. vm_compute. reflexivity.
  - rewrite reaches_check; [|vm_compute; reflexivity]. apply (bool_decide_unpack _). vm_compute. exact I.
  - vm_compute. reflexivity.
Qed.

(** *** C16 *)
Theorem C16_merged_commits rng sha g es d b name : any_order rng -> es ≡ₚ map_to_list g ->
  complete g -> is_Some (g !! d) -> is_Some (g !! b) -> acyclic g -> reaches g d b ->
  exists br, branch_info rng sha g (children_from_parents es) d name b = Ret (Some br) /\
    lists_exactly (br_commits br) (fun x => x = b \/ (ancestor g b x /\ ~ reaches_avoiding g (fun y => y = b) d x)) /\
    (exists l, br_commits br = l ++ [b]) /\ br_ahead br = length (br_commits br).
Proof.
  intros H1 H2 H3 H4 H5 Hac Hm. destruct (branch_info_spec rng sha g es d b name H1 H2 H3 H4 H5)
    as (br & Hbr & _ & B1 & B2 & _ & _ & _ & B3 & B4 & B5 & _ & _ & _ & B6 & _).
  exists br. split_and!; try done. split; [done|]. intros x. rewrite B6 by by left. unfold base, reaches, ancestor. rewrite rtc_tc.
  split; [intros [?|[[->|?] ?]]; auto|intros [?|[? ?]]; auto].
Qed.
Print Assumptions C16_merged_commits.
Definition ex_merged : graph :=
  mk [("r0", []); ("m1", ["r0"]); ("b2", ["m1"]); ("b3", ["b2"]); ("m4", ["m1"; "b3"]); ("m5", ["m4"])]%string.
Example C16_hypotheses_hold :
  complete ex_merged /\ acyclic ex_merged /\ reaches ex_merged (B "m5") (B "b3") /\
  branch_info (fun l => l) (fun s => s) ex_merged (children_from_parents (map_to_list ex_merged)) (B "m5") (B "t") (B "b3")
  = Ret (Some (Branch (B "tm1") (B "t") false (B "b3") false true (B "m4") [B "m1"] [B "b2"; B "b3"] 0 2 (B "b2"))).
Proof.
  split_and!.
  - apply complete_check. vm_compute. reflexivity.
  - apply (acyclic_check rank_of). vm_compute. reflexivity.
  - rewrite reaches_check; [|vm_compute; reflexivity]. apply (bool_decide_unpack _). vm_compute. exact I.
  - vm_compute. reflexivity.
Qed.

(** *** C17: false for heads that are old default-branch commits; true for unmerged heads. *)
Definition linear_graph : graph := mk [("a1", []); ("b2", ["a1"]); ("d3", ["b2"])]%string.
(** The branch was created at an old commit of the default branch and never got a commit of its own; all of the default
    branch up to it is reported as the branch's commits. *)
Theorem C17_old_head_refuted :
  exists g d b br, complete g /\ acyclic g /\ reaches g d b /\
    branch_info (fun l => l) (fun s => s) g (children_from_parents (map_to_list g)) d (B "t") b = Ret (Some br) /\
    (forall x, reaches g d x -> length (parents g x) <= 1) /\ br_commits br = [B "a1"; B "b2"] /\ br_commits br <> [].
Proof.
  exists linear_graph, (B "d3"), (B "b2"). eexists. split_and!.
  - apply complete_check. vm_compute. reflexivity.
  - apply (acyclic_check rank_of). vm_compute. reflexivity.
  - rewrite reaches_check; [|vm_compute; reflexivity]. apply (bool_decide_unpack _). vm_compute. exact I.
  - vm_compute. reflexivity.
  - intros x. rewrite reaches_check; [|vm_compute; reflexivity]. intros Hx.
    repeat (apply elem_of_cons in Hx as [->|Hx]; [vm_compute; lia|]). set_solver.
  - reflexivity.
  - done.
Qed.
Print Assumptions C17_old_head_refuted.
Theorem C17_unmerged_partial rng sha g es d b name : any_order rng -> es ≡ₚ map_to_list g ->
  complete g -> is_Some (g !! d) -> is_Some (g !! b) -> ~ reaches g d b ->
  exists br, branch_info rng sha g (children_from_parents es) d name b = Ret (Some br) /\
    forall x, x ∈ br_commits br -> ~ reaches g d x.
Proof.
  intros. destruct (C15_unmerged_commits rng sha g es d b name) as (br & Hbr & [_ Hx] & _); try done.
  exists br. split; [done|]. intros x. rewrite Hx. tauto.
Qed.
Print Assumptions C17_unmerged_partial.

(** *** C18 *)
Definition diamond : graph := mk [("m0", []); ("b1", ["m0"]); ("b2", ["b1"]); ("b3", ["b1"]); ("b4", ["b2"; "b3"])]%string.
(** The first listed commit b2 has its parent b1 in the branch. *)
Theorem C18_first_commit_refuted :
  exists g d b br, complete g /\ acyclic g /\ ~ reaches g d b /\
    branch_info (fun l => l) (fun s => s) g (children_from_parents (map_to_list g)) d (B "t") b = Ret (Some br) /\
    br_first br = B "b2" /\ B "b1" ∈ br_commits br /\ parent g (B "b2") (B "b1").
Proof.
  exists diamond, (B "m0"), (B "b4"). eexists. split_and!.
  - apply complete_check. vm_compute. reflexivity.
  - apply (acyclic_check rank_of). vm_compute. reflexivity.
  - rewrite reaches_check; [|vm_compute; reflexivity]. apply (bool_decide_unpack _). vm_compute. exact I.
  - vm_compute. reflexivity.
  - reflexivity.
  - apply (bool_decide_unpack _). vm_compute. exact I.
  - unfold parent. apply (bool_decide_unpack _). vm_compute. exact I.
Qed.
Print Assumptions C18_first_commit_refuted.
(** FirstCommit is Commits[0]; the head is last; every other commit has a child later in the list; and when no commit of
    the branch has two parents in the branch, no parent of FirstCommit is in the branch. *)
Theorem C18_first_commit_partial rng sha g es d b name : any_order rng -> es ≡ₚ map_to_list g ->
  complete g -> is_Some (g !! d) -> is_Some (g !! b) ->
  exists br, branch_info rng sha g (children_from_parents es) d name b = Ret (Some br) /\
    (exists l, br_commits br = br_first br :: l) /\ (exists l, br_commits br = l ++ [b]) /\
    (forall l1 c l2, br_commits br = l1 ++ c :: l2 -> c <> b -> exists child, child ∈ l2 /\ parent g child c) /\
    (acyclic g ->
     (forall c p q, c ∈ br_commits br -> p ∈ br_commits br -> q ∈ br_commits br -> parent g c p -> parent g c q -> p = q) ->
     forall x, x ∈ br_commits br -> ~ parent g (br_first br) x).
Proof.
  intros H1 H2 H3 H4 H5. destruct (branch_info_spec rng sha g es d b name H1 H2 H3 H4 H5)
    as (br & Hbr & _ & B1 & B2 & _ & _ & _ & B3 & B4 & B5 & [l B7] & B8 & _).
  exists br. split_and!; [done|by exists l|done|done|]. intros Hac Hu x Hx. eapply chain_first; done.
Qed.
Print Assumptions C18_first_commit_partial.

(** *** C19 *)
Theorem C19_branch_points rng sha g es d b name : any_order rng -> es ≡ₚ map_to_list g ->
  complete g -> is_Some (g !! d) -> is_Some (g !! b) -> acyclic g ->
  let point commits x := reaches_avoiding g (fun y => y = b) d x /\ exists c, c ∈ commits /\ parent g c x in
  exists br, branch_info rng sha g (children_from_parents es) d name b = Ret (Some br) /\
    StronglySorted bytes_le (br_from br) /\
    lists_exactly (br_from br) (fun x => point (br_commits br) x /\ ~ exists y, point (br_commits br) y /\ ancestor g x y).
Proof.
  intros H1 H2 H3 H4 H5 Hac. destruct (branch_info_spec rng sha g es d b name H1 H2 H3 H4 H5)
    as (br & Hbr & _ & _ & _ & _ & _ & _ & _ & _ & _ & _ & _ & _ & _ & B & _).
  exists br. split; [done|]. by apply B.
Qed.
Print Assumptions C19_branch_points.
(** An unmerged branch has a branch point exactly when it shares history with the default branch. *)
Theorem C19_no_branch_point_iff_unrelated rng sha g es d b name : any_order rng -> es ≡ₚ map_to_list g ->
  complete g -> is_Some (g !! d) -> is_Some (g !! b) -> acyclic g -> ~ reaches g d b ->
  exists br, branch_info rng sha g (children_from_parents es) d name b = Ret (Some br) /\
    (br_from br <> [] <-> exists x, reaches g b x /\ reaches g d x).
Proof.
  intros H1 H2 H3 H4 H5 Hac Hn. destruct (branch_info_spec rng sha g es d b name H1 H2 H3 H4 H5)
    as (br & Hbr & _ & _ & _ & _ & _ & _ & _ & _ & _ & _ & _ & _ & B6 & B & _).
  exists br. split; [done|]. eapply from_nonempty; [done|done|apply B6; by left|apply B; done].
Qed.
Print Assumptions C19_no_branch_point_iff_unrelated.

(** *** C20 *)
Definition behind_graph : graph := mk [("m1", []); ("m2", ["m1"]); ("c2", ["m1"]); ("m3", ["m2"; "c2"]); ("b4", ["m2"])]%string.
(** m1 is in the branch, yet counted: 3 instead of the 2 commits m3, c2. *)
Theorem C20_behind_count_refuted :
  exists g d b br, complete g /\ acyclic g /\ ~ reaches g d b /\
    branch_info (fun l => l) (fun s => s) g (children_from_parents (map_to_list g)) d (B "t") b = Ret (Some br) /\
    br_behind br = 3 /\ forall missing, lists_exactly missing (fun x => reaches g d x /\ ~ reaches g b x) -> length missing = 2.
Proof.
  exists behind_graph, (B "m3"), (B "b4"). eexists. split_and!.
  - apply complete_check. vm_compute. reflexivity.
  - apply (acyclic_check rank_of). vm_compute. reflexivity.
  - rewrite reaches_check; [|vm_compute; reflexivity]. apply (bool_decide_unpack _). vm_compute. exact I.
  - vm_compute. reflexivity.
  - reflexivity.
  - intros missing [Hnd Hm]. assert (missing ≡ₚ [B "m3"; B "c2"]) as ->; [|done].
    apply NoDup_Permutation; [done| |].
    + apply (bool_decide_unpack _). vm_compute. exact I.
    + intros x. rewrite Hm.
      rewrite (reaches_check behind_graph (B "m3")); [|vm_compute; reflexivity].
      rewrite (reaches_check behind_graph (B "b4")); [|vm_compute; reflexivity].
      split.
      * intros [H1 H2]. repeat (apply elem_of_cons in H1 as [->|H1]; [first [exfalso; apply H2; apply (bool_decide_unpack _); vm_compute; exact I | apply (bool_decide_unpack _); vm_compute; exact I]|]). set_solver.
      * intros H1. repeat (apply elem_of_cons in H1 as [->|H1]; [split; apply (bool_decide_unpack _); vm_compute; exact I|]). set_solver.
Qed.
Print Assumptions C20_behind_count_refuted.
(** For an unmerged branch that shares history with the default branch: every missing commit is counted (so the number
    is never too small); the count is exactly the default-branch commits reachable without passing through a commit of the
    branch or a branch point; it is the number of missing commits whenever the default branch has a linear history. *)
Theorem C20_behind_count_partial rng sha g es d b name : any_order rng -> es ≡ₚ map_to_list g ->
  complete g -> is_Some (g !! d) -> is_Some (g !! b) -> acyclic g -> ~ reaches g d b ->
  (exists x, reaches g b x /\ reaches g d x) ->
  let meets := reaches_avoiding g (reaches g d) b in
  exists br counted, branch_info rng sha g (children_from_parents es) d name b = Ret (Some br) /\
    br_behind br = length counted /\
    lists_exactly counted (fun x => reaches_avoiding g meets d x /\ ~ meets x) /\
    (forall x, reaches g d x -> ~ reaches g b x -> x ∈ counted) /\
    ((forall x, reaches g d x -> length (parents g x) <= 1) -> lists_exactly counted (fun x => reaches g d x /\ ~ reaches g b x)).
Proof.
  intros H1 H2 H3 H4 H5 Hac Hn Hsh mt. destruct (branch_info_spec rng sha g es d b name H1 H2 H3 H4 H5)
    as (br & Hbr & _ & _ & _ & _ & _ & _ & _ & _ & _ & _ & _ & _ & B6 & B & _ & K & _).
  destruct (K Hn) as (_ & _ & Kb). destruct Kb as (counted & Hc & [X1 X2]).
  { eapply from_nonempty; [done|done|apply B6; by left|apply B; done|done]. }
  exists br, counted. split_and!; [done|done|done| |].
  - intros x Hd Hb. apply X2. by apply missing_counted.
  - intros Hl. split; [done|]. intros x. rewrite X2. split.
    + intros [Ha Hm]. split; [by apply avoiding_reaches in Ha|]. by eapply linear_exact.
    + intros [Hd Hb]. by apply missing_counted.
Qed.
Print Assumptions C20_behind_count_partial.

(** *** C21 *)
Theorem C21_merge_commit rng sha g es d b name : any_order rng -> es ≡ₚ map_to_list g ->
  complete g -> is_Some (g !! d) -> is_Some (g !! b) -> [] ∉ (map_to_list g).*1 -> 
  exists br, branch_info rng sha g (children_from_parents es) d name b = Ret (Some br) /\
    (br_merged br = true <-> reaches g d b) /\
    (br_merged br = false -> br_merge_commit br = []) /\
    (br_merge_commit br <> [] -> parent g (br_merge_commit br) b /\ reaches g d (br_merge_commit br) /\
       forall c, parent g c b -> reaches g d c -> bytes_le (br_merge_commit br) c) /\
    (br_merged br = true -> b <> d -> br_merge_commit br <> []).
Proof.
  intros H1 H2 H3 H4 H5 Hnil. destruct (branch_info_spec rng sha g es d b name H1 H2 H3 H4 H5)
    as (br & Hbr & _ & _ & _ & _ & _ & Bm & _ & _ & _ & _ & _ & _ & _ & _ & BM & BU & _).
  destruct (reachable_exact g d) as (R & _ & _ & HR).
  exists br. split_and!; [done|done| | |].
  - intros Hf. apply BU. rewrite <-Bm. by rewrite Hf.
  - intros Hne. destruct (decide (b ∈ R)) as [Hin|Hin]; rewrite HR in Hin.
    + destruct (BM Hin) as [_ [[? _]|?]]; done.
    + destruct (BU Hin) as [? _]. done.
  - intros Ht Hbd He. apply Bm in Ht. destruct (BM Ht) as [_ [[_ Hno]|[Hp _]]].
    + destruct (merged_child g d b Ht Hbd) as (c & Hc & Hr). by apply (Hno c).
    + rewrite He in Hp. apply parent_is_key in Hp as [ps Hps]. apply Hnil. apply elem_of_list_fmap. exists ([], ps).
      split; [done|]. by apply elem_of_map_to_list.
Qed.
Print Assumptions C21_merge_commit.
(** A branch (or pull request) at the default head itself is merged but has no merge commit. *)
Theorem C21_default_head_refuted :
  exists g d br, complete g /\ acyclic g /\
    branch_info (fun l => l) (fun s => s) g (children_from_parents (map_to_list g)) d (B "t") d = Ret (Some br) /\
    br_merged br = true /\ br_merge_commit br = [].
Proof.
  exists linear_graph, (B "d3"). eexists. split_and!.
  - apply complete_check. vm_compute. reflexivity.
  - apply (acyclic_check rank_of). vm_compute. reflexivity.
  - vm_compute. reflexivity.
  - reflexivity.
  - reflexivity.
Qed.
Print Assumptions C21_default_head_refuted.

(** *** C22 *)
Theorem C22_default_branch_commits sha g name head first : closed_from g head ->
  exists br, default_record sha g name head first = Ret br /\ lists_exactly (br_commits br) (reaches g head) /\
    (exists l, br_commits br = l ++ [head]) /\ br_default br = true /\ br_head br = head /\ br_name br = name /\
    br_first br = first /\ br_merged br = false /\ br_pr br = false /\
    br_id br = sha name /\ br_merge_commit br = [] /\ br_from br = [] /\ br_behind br = 0 /\ br_ahead br = 0.
Proof.
  intros H. destruct (all_commits_spec g head) as [(_ & cs & E & X & Y & _)|[? _]]; [|done].
  unfold default_record. rewrite E. cbn. eexists. split_and!; try done. cbn. unfold branch_id. by rewrite app_nil_r.
Qed.
Print Assumptions C22_default_branch_commits.
Theorem C22_panics_iff_commit_missing sha g name head first :
  (exists m, default_record sha g name head first = Panic m) <-> ~ closed_from g head.
Proof.
  unfold default_record. destruct (all_commits_spec g head) as [(Hc & cs & E & _)|[Hc E]]; rewrite E; cbn.
  - split; [by intros [m [=]]|done].
  - split; [done|by eexists].
Qed.
Print Assumptions C22_panics_iff_commit_missing.
Example C22_example :
  omap_o br_commits (default_record (fun s => s) ex_merged (B "master") (B "m5") (B "r0")) =
  Ret [B "r0"; B "m1"; B "b2"; B "b3"; B "m4"; B "m5"].
Proof. vm_compute. reflexivity. Qed.

(** An unknown pull request head is skipped. *)
Theorem C23_unknown_pull_request_skipped rng sha g ch d b : g !! b = None -> branch_info rng sha g ch d [] b = Ret None.
Proof. exact (unknown_pr rng sha g ch d b). Qed.
Print Assumptions C23_unknown_pull_request_skipped.

(** ** C25 *)
Theorem C25_common_ancestor g heads fuel : acyclic g -> heads <> [] -> graph_fuel g <= fuel ->
  (exists c, last_common_parent fuel g heads = Ret c /\ forall h, h ∈ heads -> reaches g h c) \/
  (last_common_parent fuel g heads = Panic (B "all roots reached") /\ ~ exists c, forall h, h ∈ heads -> reaches g h c).
Proof.
  intros H1 H2 H3. destruct (lcp_correct g heads fuel H1 H2 H3) as [?|[? H]]; [by left|]. right. split; [done|].
  intros [c Hc]. by apply (H c).
Qed.
Print Assumptions C25_common_ancestor.
Definition lcp_graph : graph := mk [("r0", []); ("m1", ["r0"]); ("x2", ["r0"]); ("z2", ["m1"]); ("y3", ["z2"]); ("h4", ["x2"; "y3"]);
  ("u2", ["r0"]); ("w2", ["m1"]); ("v3", ["w2"]); ("k4", ["u2"; "v3"])]%string.
(** m1 is a common ancestor and a descendant of the commit returned. *)
Theorem C25_latest_refuted :
  exists g heads c c', acyclic g /\ last_common_parent (graph_fuel g) g heads = Ret c /\
    (forall h, h ∈ heads -> reaches g h c') /\ ancestor g c' c.
Proof.
  exists lcp_graph, [B "h4"; B "k4"], (B "r0"), (B "m1"). split_and!.
  - apply (acyclic_check rank_of). vm_compute. reflexivity.
  - vm_compute. reflexivity.
  - intros h Hh. repeat (apply elem_of_cons in Hh as [->|Hh]; [rewrite reaches_check; [|vm_compute; reflexivity]; apply (bool_decide_unpack _); vm_compute; exact I|]). set_solver.
  - constructor. unfold parent. apply (bool_decide_unpack _). vm_compute. exact I.
Qed.
Print Assumptions C25_latest_refuted.
