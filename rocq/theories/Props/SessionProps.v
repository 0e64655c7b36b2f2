(** * C69: several calls on one object

    [graph_read ord out] is the graph a new object reads from git's output [out]. *)
From Verif.Model Require Import Base GoStrings IncBlame LogParser ParentsGraph Branches Process Session.
From Verif.Spec Require Import Text GitLog CommitGraph History Processing Resuming.
From Verif.Proofs Require Import ParentsGraphProofs GraphExamples ProcessExamples CheckpointExamples.
From Verif.Props Require Import GraphProps.
From Coq Require Import Lia.

Definition map_order (ord : graph -> list (bytes * list bytes)) : Prop := forall g, ord g ≡ₚ map_to_list g.

Lemma read_order ord ord' out : map_order ord -> map_order ord' -> graph_read ord out = graph_read ord' out.
Proof.
  intros H1 H2. unfold graph_read. destruct (pp_run out) as [m| |]; [|done..]. cbn [obind]. by rewrite (C13_iteration_order_irrelevant m (ord m) (ord' m)).
Qed.
(** While the repository does not change, a call uses the graph a new object would read, whatever the calls before it. *)
Theorem C69_unchanged_partial calls ord ord' out g :
  (forall o d, (o, d) ∈ calls -> map_order o /\ d = out) -> map_order ord -> map_order ord' -> graph_read ord' out = Ret g ->
  (build_commit_graph (calls_on new_ripsrc calls) ord out).2 = Ret g.
Proof.
  intros Hc Ho Ho' Hg.
  assert (Hi : forall s, (s = new_ripsrc \/ s = Ripsrc (Some g)) -> calls_on s calls = new_ripsrc \/ calls_on s calls = Ripsrc (Some g)).
  { induction calls as [|[o d] r IH]; intros s Hs; [done|]. unfold calls_on. cbn [foldl]. apply IH; [intros o' d' Hin; apply Hc; by right|].
    destruct (Hc o d (elem_of_list_here _ _)) as [Hod ->]. right. destruct Hs as [-> | ->]; [|done]. cbn. by rewrite (read_order o ord' out Hod Ho'), Hg. }
  destruct (Hi new_ripsrc (or_introl eq_refl)) as [-> | ->]; [|done]. cbn. by rewrite (read_order ord ord' out Ho Ho'), Hg.
Qed.
Print Assumptions C69_unchanged_partial.
(** C69 is false when the repository changes: every later call uses the graph of the first one. *)
Theorem C69_changes_ignored_refuted ord0 out0 calls ord out g : graph_read ord0 out0 = Ret g ->
  (build_commit_graph (calls_on new_ripsrc ((ord0, out0) :: calls)) ord out).2 = Ret g.
Proof.
  intros Hg. unfold calls_on. cbn [foldl fst snd]. assert (E : (build_commit_graph new_ripsrc ord0 out0).1 = Ripsrc (Some g)) by (cbn; by rewrite Hg).
  rewrite E. clear E. assert (Hi : foldl (fun s c => (build_commit_graph s c.1 c.2).1) (Ripsrc (Some g)) calls = Ripsrc (Some g)); [|by rewrite Hi].
  induction calls as [|c r IH]; [done|]. exact IH.
Qed.
Print Assumptions C69_changes_ignored_refuted.
(** Then the call Branches panics if the head of the default branch is new, and says nothing about a new pull request. *)
Theorem C69_branches_refuted rng sha g ch d name first new : g !! new = None ->
  (exists m, default_record sha g name new first = Panic m) /\ branch_info rng sha g ch d [] new = Ret None.
Proof.
  intros Hn. split; [|by apply C23_unknown_pull_request_skipped]. apply C22_panics_iff_commit_missing. intros Hc. specialize (Hc new). destruct Hc as [ps Hps]; [apply rtc_refl|]. congruence.
Qed.
Print Assumptions C69_branches_refuted.
(** And Code panics where a new object does not: the first call when the repository has one commit, the second with the next commit added. *)
Definition first_log : bytes := render_graph [(a1, [])].
Definition second_log : bytes := render_graph [(a1, []); (b2, [a1])].
Definition env_of (g : graph * graph) : env := Env g.1 g.2 (ex_slow ex_hist) (fun _ => id_orders).
Theorem C69_code_refuted : exists g g', hparents ex_hist a1 = [] /\ hparents ex_hist b2 = [a1] /\
  (build_commit_graph (calls_on new_ripsrc [(map_to_list, first_log)]) map_to_list second_log).2 = Ret g /\
  (build_commit_graph new_ripsrc map_to_list second_log).2 = Ret g' /\
  (process_log (env_of g) (pst_init ∅) (map commit_of (git_log ex_hist [a1; b2]))).2 = Panic (B "index out of range") /\
  (process_log (env_of g') (pst_init ∅) (map commit_of (git_log ex_hist [a1; b2]))).2 = Ret tt.
Proof.
  set (rd := fun out => get (∅, ∅) (graph_read map_to_list out)). exists (rd first_log), (rd second_log).
  split; [vm_compute; reflexivity|]. split; [vm_compute; reflexivity|].
  split; [apply (C69_changes_ignored_refuted map_to_list first_log []); apply get_ok; vm_compute; reflexivity|].
  split; [|split; vm_compute; reflexivity].
  assert (E : graph_read map_to_list second_log = Ret (rd second_log)) by (apply get_ok; vm_compute; reflexivity).
  apply (C69_unchanged_partial [] map_to_list map_to_list second_log); [intros o d Hin; by apply elem_of_nil in Hin|by intros x|by intros x|exact E].
Qed.
Print Assumptions C69_code_refuted.
Example C69_hypotheses_hold : exists g, graph_read map_to_list first_log = Ret g /\ g.1 !! b2 = None /\ map_order map_to_list.
Proof. exists (get (∅, ∅) (graph_read map_to_list first_log)). split; [apply get_ok; vm_compute; reflexivity|]. split; [vm_compute; reflexivity|]. by intros g. Qed.
