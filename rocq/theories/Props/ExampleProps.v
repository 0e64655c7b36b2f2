(** * Concrete cases that meet the hypotheses of theorems whose own file shows none *)
From Verif.Model Require Import Base GoStrings GoSort IncBlame ParentsGraph Branches HistoryGraph LogArgs GitRepos Commands.
From Verif.Spec Require Import Text UnifiedDiff Attribution CommitGraph Selection Discovery CommandLine.
From Verif.Proofs Require Import SortLemmas Dfs ParentsGraphProofs BranchProofs BranchMore LastCommonParentProofs GraphExamples TextLemmas SelectionProofs.
From Verif.Props Require Import IncBlameProps GraphProps SelectionProps GitReposProps CommandProps.
From stdpp Require Import relations.
From Coq Require Import Lia.

(** C04: a header in the middle of a file, with a heading. *)
Example C04_hypotheses_hold : exists d a, parse_context (hunk_header 17 4 18 5 (B " func f() {")) = Ret [d; a] /\ hl_op d = OpDel /\ hl_op a = OpAdd /\ denotes (hl_off d) 17.
Proof. apply C04_hunk_located_partial. left. lia. Qed.

(** C13: a diamond with a double edge; its children in two orders of iteration. *)
Definition twice : graph := mk [("r0", []); ("a1", ["r0"]); ("b1", ["r0"; "r0"]); ("m2", ["a1"; "b1"])]%string.
Example C13_hypotheses_hold : rev (map_to_list twice) ≡ₚ map_to_list twice /\
  children_from_parents (rev (map_to_list twice)) !! B "r0" = Some [B "a1"; B "b1"; B "b1"] /\
  children_from_parents (map_to_list twice) !! B "m2" = Some [].
Proof.
  split; [symmetry; apply Permutation_rev|]. split; vm_compute; reflexivity.
Qed.

(** C17, C18, C19, C20: a branch with two commits and a merge, not merged, that shares history with a default branch of a linear history; the
    last hypothesis of C18 (no commit of the branch has two parents in it) holds as well. *)
Example C20_hypotheses_hold :
  any_order (fun l => l) /\ complete ex_graph /\ acyclic ex_graph /\ is_Some (ex_graph !! B "m5") /\ is_Some (ex_graph !! B "b4") /\ ~ reaches ex_graph (B "m5") (B "b4") /\
  (reaches ex_graph (B "b4") (B "m3") /\ reaches ex_graph (B "m5") (B "m3")) /\
  (forall x, reaches ex_graph (B "m5") x -> length (parents ex_graph x) <= 1).
Proof.
  destruct C15_hypotheses_hold as (H1 & H2 & H3 & H4 & H5 & _). split; [exact id_any_order|]. split; [exact H1|]. split; [exact H2|]. split; [exact H3|]. split; [exact H4|]. split; [exact H5|]. split.
  - split; (rewrite reaches_check; [|vm_compute; reflexivity]; apply (bool_decide_unpack _); vm_compute; exact I).
  - intros x Hx. rewrite (reaches_check ex_graph (B "m5")) in Hx; [|vm_compute; reflexivity].
    repeat (apply elem_of_cons in Hx as [->|Hx]; [apply Nat.leb_le; vm_compute; reflexivity|]). by apply elem_of_nil in Hx.
Qed.
Example C18_hypotheses_hold : forall c p q, c ∈ [B "b2"; B "b4"] -> p ∈ [B "b2"; B "b4"] -> q ∈ [B "b2"; B "b4"] -> parent ex_graph c p -> parent ex_graph c q -> p = q.
Proof.
  assert (Hs : forall c p, c ∈ [B "b2"; B "b4"] -> p ∈ [B "b2"; B "b4"] -> parent ex_graph c p -> p = B "b2").
  { intros c p Hc Hp Hcp. apply elem_of_cons in Hp as [->|Hp]; [reflexivity|]. apply elem_of_list_singleton in Hp as ->. exfalso. unfold parent in Hcp.
    assert (N2 : B "b4" ∉ parents ex_graph (B "b2")) by (apply (bool_decide_unpack _); vm_compute; exact I).
    assert (N4 : B "b4" ∉ parents ex_graph (B "b4")) by (apply (bool_decide_unpack _); vm_compute; exact I).
    apply elem_of_cons in Hc as [->|Hc]; [exact (N2 Hcp)|]. apply elem_of_list_singleton in Hc as ->. exact (N4 Hcp). }
  intros c p q Hc Hp Hq Hcp Hcq. rewrite (Hs c p), (Hs c q); [reflexivity|done..].
Qed.

(** C21: a branch that was merged and is not the default head. *)
Example C21_hypotheses_hold : complete ex_merged /\ is_Some (ex_merged !! B "m5") /\ is_Some (ex_merged !! B "b3") /\ reaches ex_merged (B "m5") (B "b3") /\ B "b3" <> B "m5" /\ [] ∉ (map_to_list ex_merged).*1.
Proof.
  split; [apply complete_check; vm_compute; reflexivity|]. split; [apply is_key_check; vm_compute; reflexivity|]. split; [apply is_key_check; vm_compute; reflexivity|].
  split; [rewrite reaches_check; [|vm_compute; reflexivity]; apply (bool_decide_unpack _); vm_compute; exact I|]. split; [discriminate|]. apply (bool_decide_unpack _). vm_compute. exact I.
Qed.

(** C25: both cases occur: two heads with a common ancestor, and two roots. *)
Example C25_hypotheses_hold : acyclic ex_graph /\
  last_common_parent (graph_fuel ex_graph) ex_graph [B "b2"; B "m5"] = Ret (B "m1") /\
  last_common_parent (graph_fuel (mk [("a1", []); ("b1", [])]%string)) (mk [("a1", []); ("b1", [])]%string) [B "a1"; B "b1"] = Panic (B "all roots reached").
Proof.
  destruct C15_hypotheses_hold as (_ & H2 & _). split; [exact H2|]. split; vm_compute; reflexivity.
Qed.

(** C67: a commit that the log of the patches of an incremental run shows. *)
Example C67_hypotheses_hold : simple_name (B "b2") /\ shows sel_repo (patch_revs (ROpts (B "b2") false false true)) (B "c3").
Proof.
  destruct C68_hypotheses_hold as (H & _). split; [exact H|]. by destruct (C68_example _ eq_refl) as (_ & H2 & _).
Qed.

(** C65: one repository fails of two: the status is 0. *)
Example C65_hypotheses_hold : exists s, run_on_dirs ex_src (B "src") ex_head ex_run = (s, None) /\ s_errors s = [RepoError [B "app"] (B "no such commit")] /\ s_repos s = 2.
Proof. eexists. split; [vm_compute; reflexivity|]. split; reflexivity. Qed.
