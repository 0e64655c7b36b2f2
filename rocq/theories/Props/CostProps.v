(** * How much work the algorithms on the commit graph do (C92, C93)

    The counted versions of Model/Cost.v return what the plain ones do, and how often the recursive closure (or markReach) was called. *)
From Verif.Model Require Import Base GoStrings GoSort ParentsGraph Branches HistoryGraph Cost.
From Verif.Spec Require Import CommitGraph Work.
From Verif.Proofs Require Import CostProofs GraphExamples.
From Coq Require Import Lia.
Local Open Scope string_scope.

(** ** C92 *)
(** What is reported about a branch costs at most six walks over the links of the graph. *)
Theorem C92_branch_is_linear rng sha g ch d name head r : branch_info rng sha g ch d name head = Ret r ->
  exists calls, branch_info_c rng sha g ch d name head = Ret (r, calls) /\ calls <= 6 * (1 + links g).
Proof. intros H. destruct (branch_info_counts rng sha g ch d name head r H) as (k & E & L). exists k. split; [exact E|lia]. Qed.
Print Assumptions C92_branch_is_linear.
(** The commits of the default branch cost one. *)
Theorem C92_default_branch_is_linear g head r : get_all_commits g head = Ret r ->
  exists calls, get_all_commits_c g head = Ret (r, calls) /\ calls <= 1 + links g.
Proof. exact (all_commits_counts g head r). Qed.
Print Assumptions C92_default_branch_is_linear.

(** The history of ten merges: 1024 ways lead from the last commit to the first. *)
Example C92_hypotheses_hold : exists r calls, branch_info id id (merges 10) (merges 10) (top 3) (B "topic") (top 10) = Ret (Some r) /\
  branch_info_c id id (merges 10) (merges 10) (top 3) (B "topic") (top 10) = Ret (Some r, calls) /\ length (br_commits r) = 21 /\ calls = 111 /\ links (merges 10) = 40.
Proof.
  destruct (branch_info id id (merges 10) (merges 10) (top 3) (B "topic") (top 10)) as [[r|]| |] eqn:E; [|exfalso; vm_compute in E; discriminate..].
  exists r. destruct (C92_branch_is_linear _ _ _ _ _ _ _ _ E) as (k & Ek & _). exists k. 
  split; [done|]. split; [exact Ek|]. vm_compute in E. injection E as <-. split; [vm_compute; reflexivity|]. vm_compute in Ek. split; [congruence|apply (merges_size 10)].
Qed.

(** ** C93 *)
(** The counted search is the search of C25. *)
Theorem C93_same_answer g fuel heads : (last_common_parent_c fuel g heads).1 = last_common_parent fuel g heads.
Proof. exact (lcp_same g fuel heads). Qed.
Print Assumptions C93_same_answer.
(** In a history without merges every level of the search is as wide as there are heads. *)
Theorem C93_linear_history_partial g fuel heads : (forall c, length (parents g c) <= 1) ->
  (last_common_parent_c fuel g heads).2 <= fuel * length heads.
Proof. exact (chain_bound g fuel heads). Qed.
Print Assumptions C93_linear_history_partial.
(** With merges it follows every path: [n] merges in a row, and two heads, take 2^n calls. *)
Theorem C93_polynomial_refuted n : exists g heads c, acyclic g /\ complete g /\ (forall h, h ∈ heads -> is_Some (g !! h)) /\ size g = 3 * n + 1 /\ links g = 4 * n /\ length heads = 2 /\
  forall fuel, graph_fuel g <= fuel -> exists calls, last_common_parent_c fuel g heads = (Ret c, calls) /\ 2 ^ n <= calls.
Proof.
  exists (merges n), [top n; top 0], (top 0). destruct (merges_size n) as [H1 H2].
  split; [apply merges_acyclic|]. split; [apply merges_complete|]. split.
  { intros h [->|Hh]%elem_of_cons; [rewrite merges_top by lia; by eexists|]. apply elem_of_list_singleton in Hh as ->. rewrite merges_top by lia. by eexists. }
  split; [exact H1|]. split; [exact H2|]. split; [done|]. intros fuel Hf. apply merges_blowup.
  unfold graph_fuel in Hf. change (length (map_to_list (merges n))) with (size (merges n)) in Hf. lia.
Qed.
Print Assumptions C93_polynomial_refuted.

Example C93_hypotheses_hold : (forall c, length (parents (mk [("r0", []); ("a1", ["r0"]); ("b1", ["r0"]); ("c2", ["b1"])]) c) <= 1) /\
  last_common_parent_c 5 (mk [("r0", []); ("a1", ["r0"]); ("b1", ["r0"]); ("c2", ["b1"])]) [B "a1"; B "c2"] = (Ret (B "r0"), 5).
Proof.
  split; [|vm_compute; reflexivity]. intros c. unfold parents. destruct (_ !! c) as [ps|] eqn:E; [|cbn; lia]. cbn.
  unfold mk in E. apply elem_of_list_to_map_2 in E. cbn in E. repeat (apply elem_of_cons in E as [[= -> ->]|E]; [cbn; lia|]). by apply elem_of_nil in E.
Qed.
