(** * C90: what the command code prints *)
From Verif.Model Require Import Base GoStrings IncBlame LogParser ParentsGraph Process Msgp Checkpoint CheckpointFS CommitMeta FileInfo CodeInfo Net Pipeline GitBlame GitRepos LogArgs Api Callers ApiByCommit Commands CodeCommand.
From Verif.Spec Require Import Text UnifiedDiff Attribution GitLog CommitGraph History Processing Checkpoint Resuming Records MetaLog EndToEnd Delivery Selection Porcelain GitAnswers Continuing Failing Callers ByCommit Discovery CommandLine CodePrinting.
From Verif.Proofs Require Import TextLemmas GraphExamples SelectionProofs ProcessExamples CheckpointExamples CheckpointProofs CheckpointFiles EndToEndProofs ResumeTop ApiProofs IncrementalProofs CodeCommandProofs.
From Verif.Props Require Import MetaProps ProcessProps RecordProps PipelineProps GraphProps GitBlameProps EndToEndProps GitReposProps CommandProps SelectionProps CheckpointProps ApiProps IncrementalProps FailureProps ByCommitProps.
From Coq Require Import Lia.

Section C90.
Context {T L : Type} (zt : T) (parse_date : bytes -> option T) (cl : classifiers L) (count : bytes -> bytes -> bytes -> list (Z * line_type) * totals).
Context (orders : path -> nat -> list (bytes * blame) -> list (bytes * blame)) (graph_order : graph -> list (bytes * list bytes)) (merge_orders : path -> bytes -> Process.orders) (skip : bytes -> pres unit).
Context (t : node) (root : bytes) (head : path -> bytes) (has : path -> bool) (at_ : path -> place).
Context (k : nat) (R : path -> gitrepo) (H : path -> history) (about : path -> bytes -> meta_entry T).
Notation slow p := (fallback (pl_git (at_ p))).
Notation acts sha p s := (place_act zt cl count (orders p) (merge_orders p) skip sha s (at_ p)).
Notation may sha p := (may_end zt parse_date cl count (orders p) graph_order (merge_orders p) skip sha (at_ p)).

Notation right_for sha cs line_ok p := (repo_right zt parse_date cl count (orders p) graph_order (merge_orders p) skip (at_ p) (H p) (about p) sha cs line_ok).

Lemma all_right sha (sel : path -> bytes -> Prop) (line_ok : path -> list bytes -> line -> bline T -> Prop) :
  is_dir t -> accessible t -> listed_in_order t ->
  (forall p, repo_within t root 1 p -> has p = false -> without_commits (head p)) ->
  (forall p, repo_within t root 1 p -> has p = true -> is_Some (g_parents (R p) !! g_head (R p)) /\ usable k parse_date (R p) (H p) (about p) /\ head p = g_head (R p) ++ [NL]) ->
  (forall p, repo_within t root 1 p -> has p = true -> exists ys it err cs, lists_exactly cs (sel p) /\ children_last (g_parents (R p)) cs /\ right_for sha cs (line_ok p cs) p ys it err) ->
  exists repos (ys : path -> list (mcommit T * list (bresult T L))) (its : path -> list (item T L)) (err : path -> option bytes),
    (forall p, p ∈ repos <-> repo_within t root 1 p) /\ NoDup repos /\ (forall i j p q, i < j -> repos !! i = Some p -> repos !! j = Some q -> path_lt p q) /\
    (forall p, p ∈ repos -> has p = true -> exists cs, lists_exactly cs (sel p) /\ children_last (g_parents (R p)) cs /\ right_for sha cs (line_ok p cs) p (ys p) (its p) (err p)) /\
    forall ends, (forall p, p ∈ repos -> has p = true -> may sha p (ends p)) ->
      prints t root head ends =
        (concat (map its (filter (fun p => has p = true) repos)),
         Some (ending (length repos) (length (filter (fun p => has p = false) repos)) (sum_list (map (fun p => length (concat (map snd (ys p)))) (filter (fun p => has p = true) repos)))
                 (errors_of err (filter (fun p => has p = true) repos)))).
Proof.
  intros Hd Ha Hl Hno Hyes Hone.
  assert (Hh : forall p, repo_within t root 1 p -> has_head_commit head p = has p).
  { intros p Hp. destruct (has p) eqn:E; [|by apply without_commits_has, Hno]. destruct (Hyes p Hp E) as (Hi & HU & Hhd). apply with_commits_has. exists (g_head (R p)).
    destruct (us_head _ _ _ _ _ HU) as [_ Hlen]. split; [|split; [exact Hlen|exact Hhd]]. rewrite <- (us_same _ _ _ _ _ HU) in Hi. by apply (us_valid _ _ _ _ _ HU). }
  destruct (C56_found_partial t root 1 Hd Ha Hl) as (repos0 & _ & Hin0 & _).
  destruct (choose_on (fun p (yi : list (mcommit T * list (bresult T L)) * list (item T L) * option bytes) => has p = true -> exists cs, lists_exactly cs (sel p) /\ children_last (g_parents (R p)) cs /\
     right_for sha cs (line_ok p cs) p yi.1.1 yi.1.2 yi.2) ([], [], None) repos0) as [f Hf].
  { intros p Hp. apply Hin0 in Hp. destruct (has p) eqn:E; [|by exists ([], [], None)]. destruct (Hone p Hp E) as (ys & it & err & Hyi). by exists (ys, it, err). }
  destruct (command_ends t root head has Hd Ha Hl Hh (fun p => (f p).1.2) (fun p => length (concat (map snd (f p).1.1))) (fun p => (f p).2)) as (repos & H1 & H2 & H3 & H4 & _).
  exists repos, (fun p => (f p).1.1), (fun p => (f p).1.2), (fun p => (f p).2). split; [exact H1|]. split; [exact H2|]. split; [exact H3|].
  assert (Hr : forall p, p ∈ repos -> has p = true -> exists cs, lists_exactly cs (sel p) /\ children_last (g_parents (R p)) cs /\ right_for sha cs (line_ok p cs) p (f p).1.1 (f p).1.2 (f p).2).
  { intros p Hp. apply Hf. by apply Hin0, H1. }
  split; [exact Hr|]. intros ends He. apply H4. intros p Hp Hhas. destruct (Hr p Hp Hhas) as (cs & _ & _ & _ & _ & _ & Hend). apply Hend. by apply He.
Qed.

(** C90: for every directory that can be read, repositories in it or one level down, each empty or usable, every git that answers as documented, every
    schedule and order of maps: the command prints, repository after repository, each commit of HEAD's history, parents first, each followed by one line
    for each of its records, that shows it, and at the end how many repositories and records there were, with status 0; a checkpoint that cannot be
    written is the only error there may be for such a repository: the others are worked on, and the error is printed at the end.

    Partial: the restrictions of [usable] (as in C77); the number of blank lines shown is wrong (C66). *)
Theorem C90_code_command_partial :
  is_dir t -> accessible t -> listed_in_order t ->
  (forall p, repo_within t root 1 p -> has p = false -> without_commits (head p)) ->
  (forall p, repo_within t root 1 p -> has p = true -> ready k parse_date (R p) (H p) (about p) (head p) (at_ p)) ->
  (forall p n, any_perm (orders p n)) -> (forall g, graph_order g ≡ₚ map_to_list g) -> (forall p c, any_orders (merge_orders p c)) -> detector_works cl ->
  exists repos (ys : path -> list (mcommit T * list (bresult T L))) (its : path -> list (item T L)) (err : path -> option bytes),
    (forall p, p ∈ repos <-> repo_within t root 1 p) /\ NoDup repos /\ (forall i j p q, i < j -> repos !! i = Some p -> repos !! j = Some q -> path_lt p q) /\
    (forall p, p ∈ repos -> has p = true -> exists cs, lists_exactly cs (selected (R p) false) /\ children_last (g_parents (R p)) cs /\
       right_for [] cs (line_right (map (about p) cs)) p (ys p) (its p) (err p)) /\
    forall ends, (forall p, p ∈ repos -> has p = true -> may [] p (ends p)) ->
      prints t root head ends =
        (concat (map its (filter (fun p => has p = true) repos)),
         Some (ending (length repos) (length (filter (fun p => has p = false) repos)) (sum_list (map (fun p => length (concat (map snd (ys p)))) (filter (fun p => has p = true) repos)))
                 (errors_of err (filter (fun p => has p = true) repos)))).
Proof.
  intros Hd Ha Hl Hno Hyes Hord Hgo Hmo Hdet.
  apply (all_right [] (fun p => selected (R p) false) (fun p cs => line_right (map (about p) cs))); [exact Hd|exact Ha|exact Hl|exact Hno| |].
  { intros p Hp Hhas. destruct (Hyes p Hp Hhas) as [HU _ _ Hhd _]. split; [apply (us_head _ _ _ _ _ HU)|]. split; [exact HU|exact Hhd]. }
  intros p Hp Hhas. destruct (Hyes p Hp Hhas) as [HU HA Hids Hhd (f0 & f1 & Ht0 & Ht1)].
  destruct (C85_code_by_commit_partial zt parse_date cl count (orders p) graph_order (merge_orders p) skip (pl_disk (at_ p)) (pl_write_err (at_ p)) (pl_git (at_ p)) (pl_tmp (at_ p)) (pl_dir (at_ p)) (code_command_opts [])
    k (R p) (H p) (about p) f0 f1 HU HA eq_refl Ht0 Ht1 (Hord p) Hgo (Hmo p) Hdet) as (s & Es & cs & ys & w & Hcs & Hlast & HF & _ & _ & Hdel & _).
  specialize (Hdel (fun _ _ => None) None ltac:(intros pre c rs post _; split; [discriminate|exact I])).
  destruct (right_once zt parse_date cl count (orders p) graph_order (merge_orders p) skip (at_ p) k (R p) (H p) (about p) HU Hids [] s cs ys w _ Es (fun c Hc => selected_known _ _ _ _ _ _ _ HU (proj1 (proj2 Hcs c) Hc)) HF Hdel) as (it & err & Hit).
  exists ys, it, err, cs. split; [exact Hcs|]. split; [exact Hlast|exact Hit].
Qed.

(** With --sha, in repositories that all have this commit, and in each of which an earlier call left a right checkpoint that has what is needed
    (as in C82): the same for this commit and the later ones. *)
Theorem C90_from_sha_partial sha (from : path -> bytes) (P0 : path -> prepo) :
  is_dir t -> accessible t -> listed_in_order t ->
  (forall p, repo_within t root 1 p -> has p = false -> without_commits (head p)) -> Selection.simple_name sha ->
  (forall p, repo_within t root 1 p -> has p = true -> usable k parse_date (R p) (H p) (about p) /\ answers (R p) (H p) (about p) (pl_git (at_ p)) [] [sha ++ B "^..HEAD"] /\
     (forall c, is_Some (g_parents (R p) !! c) -> 8 <= length c) /\ head p = g_head (R p) ++ [NL] /\ (exists f0 f1, pl_tmp (at_ p) 0 = Ret f0 /\ pl_tmp (at_ p) 1 = Ret f1) /\
     starts_after (R p) (code_command_opts sha) (from p) /\
     read_checkpoint skip (pl_disk (at_ p)) [] = Ret (P0 p) /\ checkpoint_right (H p) (slow p) (values (P0 p)) /\
     (forall c q, since (R p) (from p) c -> parent (g_parents (R p)) c q -> reaches (g_parents (R p)) (from p) q -> is_Some (values (P0 p) !! q))) ->
  (forall p n, any_perm (orders p n)) -> (forall g, graph_order g ≡ₚ map_to_list g) -> (forall p c, any_orders (merge_orders p c)) -> detector_works cl ->
  exists repos (ys : path -> list (mcommit T * list (bresult T L))) (its : path -> list (item T L)) (err : path -> option bytes),
    (forall p, p ∈ repos <-> repo_within t root 1 p) /\ NoDup repos /\ (forall i j p q, i < j -> repos !! i = Some p -> repos !! j = Some q -> path_lt p q) /\
    (forall p, p ∈ repos -> has p = true -> exists cs, lists_exactly cs (since (R p) (from p)) /\ children_last (g_parents (R p)) cs /\
       right_for sha cs (line_since zt (map (about p) cs)) p (ys p) (its p) (err p)) /\
    forall ends, (forall p, p ∈ repos -> has p = true -> may sha p (ends p)) ->
      prints t root head ends =
        (concat (map its (filter (fun p => has p = true) repos)),
         Some (ending (length repos) (length (filter (fun p => has p = false) repos)) (sum_list (map (fun p => length (concat (map snd (ys p)))) (filter (fun p => has p = true) repos)))
                 (errors_of err (filter (fun p => has p = true) repos)))).
Proof.
  intros Hd Ha Hl Hno Hn Hyes Hord Hgo Hmo Hdet.
  apply (all_right sha (fun p => since (R p) (from p)) (fun p cs => line_since zt (map (about p) cs))); [exact Hd|exact Ha|exact Hl|exact Hno| |].
  { intros p Hp Hhas. destruct (Hyes p Hp Hhas) as (HU & _ & _ & Hhd & _). split; [apply (us_head _ _ _ _ _ HU)|]. split; [exact HU|exact Hhd]. }
  intros p Hp Hhas. destruct (Hyes p Hp Hhas) as (HU & HA & Hids & Hhd & (f0 & f1 & Ht0 & Ht1) & Hst & HP0 & Hr0 & Hpres).
  destruct (C85_incremental_partial zt parse_date cl count (orders p) graph_order (merge_orders p) skip (pl_disk (at_ p)) (pl_write_err (at_ p)) (pl_git (at_ p)) (pl_tmp (at_ p)) (pl_dir (at_ p)) (code_command_opts sha)
    k (R p) (H p) (about p) f0 f1 (from p) (P0 p) HU HA Hn Hst HP0 Hr0 Hpres Ht0 Ht1 (Hord p) Hgo (Hmo p) Hdet) as (s & Es & cs & ys & w & Hcs & Hlast & HF & _ & _ & Hdel & _).
  specialize (Hdel (fun _ _ => None) None ltac:(intros pre c rs post _; split; [discriminate|exact I])).
  assert (Hknown : forall c, c ∈ cs -> is_Some (g_parents (R p) !! c)).
  { intros c Hc. apply Hcs in Hc as [Hc _]. apply (selected_known _ _ _ _ _ false _ HU). exists (g_head (R p)). split; [by left|exact Hc]. }
  destruct (right_once zt parse_date cl count (orders p) graph_order (merge_orders p) skip (at_ p) k (R p) (H p) (about p) HU Hids sha s cs ys w _ Es Hknown HF Hdel) as (it & err & Hit).
  exists ys, it, err, cs. split; [exact Hcs|]. split; [exact Hlast|exact Hit].
Qed.

(** A repository in which the program ends before anything is read: what is printed is what was printed for repositories before it, and the
    others are not worked on. *)
Lemma crash_in_one sha p m : is_dir t -> accessible t -> listed_in_order t ->
  (forall p, repo_within t root 1 p -> if has p then with_commits (head p) else without_commits (head p)) ->
  code_setup zt parse_date graph_order (pl_git (at_ p)) (pl_tmp (at_ p)) (pl_dir (at_ p)) (code_command_opts sha) = Panic m -> repo_within t root 1 p -> has p = true ->
  exists pre post, (forall q, q ∈ pre ++ p :: post <-> repo_within t root 1 q) /\ NoDup (pre ++ p :: post) /\
    (forall i j q q', i < j -> (pre ++ p :: post) !! i = Some q -> (pre ++ p :: post) !! j = Some q' -> path_lt q q') /\
    forall ends, (forall q, repo_within t root 1 q -> has q = true -> may sha q (ends q)) ->
      (prints t root head ends).2 = None /\
      forall x, x ∈ (prints t root head ends).1 -> exists q, q ∈ pre /\ has q = true /\ x ∈ printed_of (ends q).
Proof.
  intros Hd Ha Hl Hh Hs Hp Hhas.
  assert (Hh' : forall p, repo_within t root 1 p -> has_head_commit head p = has p).
  { intros q Hq. specialize (Hh q Hq). destruct (has q); [by apply with_commits_has|by apply without_commits_has]. }
  destruct (command_ends (A := item T L) t root head has Hd Ha Hl Hh' (fun _ => []) (fun _ => 0) (fun _ => None)) as (repos & H1 & H2 & H3 & _ & H4).
  assert (Hin : p ∈ repos) by (by apply H1). apply elem_of_list_split in Hin as (pre & post & ->). exists pre, post. split; [exact H1|]. split; [exact H2|]. split; [exact H3|].
  intros ends He. apply (H4 ends pre p post eq_refl Hhas). specialize (He p Hp Hhas). by apply (crash_end zt parse_date cl count (orders p) graph_order (merge_orders p) skip sha (at_ p) m Hs) in He.
Qed.

(** C90 asks that the command goes on after a repository it cannot work on, and says so at the end.  This is false if one of git's logs fails
    there: the program ends with a panic, without a last line, and no repository after that one is worked on. *)
Theorem C90_one_failing_repository_refuted git p f0 f1 cmd : is_dir t -> accessible t -> listed_in_order t ->
  (forall p, repo_within t root 1 p -> if has p then with_commits (head p) else without_commits (head p)) ->
  repo_within t root 1 p -> has p = true -> usable k parse_date (R p) (H p) (about p) -> answers (R p) (H p) (about p) git [] [] ->
  pl_tmp (at_ p) 0 = Ret f0 -> pl_tmp (at_ p) 1 = Ret f1 -> may_fail git (pl_git (at_ p)) -> (forall x, pl_git (at_ p) x [B "rev-parse"; B "HEAD"] = git x [B "rev-parse"; B "HEAD"]) ->
  cmd ∈ log_commands f0 f1 [] -> fails (pl_git (at_ p)) cmd ->
  exists pre post, (forall q, q ∈ pre ++ p :: post <-> repo_within t root 1 q) /\ NoDup (pre ++ p :: post) /\
    (forall i j q q', i < j -> (pre ++ p :: post) !! i = Some q -> (pre ++ p :: post) !! j = Some q' -> path_lt q q') /\
    forall ends, (forall q, repo_within t root 1 q -> has q = true -> may [] q (ends q)) ->
      (prints t root head ends).2 = None /\
      forall x, x ∈ (prints t root head ends).1 -> exists q, q ∈ pre /\ has q = true /\ x ∈ printed_of (ends q).
Proof.
  intros Hd Ha Hl Hh Hp Hhas HU HA Ht0 Ht1 HM Hhd Hcmd Hf.
  destruct (C83_failed_log_refuted zt parse_date graph_order git (pl_git (at_ p)) (pl_tmp (at_ p)) (pl_dir (at_ p)) (code_command_opts []) k (R p) (H p) (about p) f0 f1 cmd
    HU HA eq_refl Ht0 Ht1 HM Hhd Hcmd Hf) as [m Hm]. by apply (crash_in_one [] p m).
Qed.

(** The same with --sha for a repository that does not have that commit, in whatever order: git knows no such range, and the whole command ends. *)
Theorem C90_sha_elsewhere_refuted sha p f0 f1 : is_dir t -> accessible t -> listed_in_order t ->
  (forall p, repo_within t root 1 p -> if has p then with_commits (head p) else without_commits (head p)) ->
  repo_within t root 1 p -> has p = true -> usable k parse_date (R p) (H p) (about p) -> answers (R p) (H p) (about p) (pl_git (at_ p)) [] [] ->
  pl_tmp (at_ p) 0 = Ret f0 -> pl_tmp (at_ p) 1 = Ret f1 ->
  sha <> [] -> (forall cmd, cmd ∈ log_commands f0 f1 [sha ++ B "^..HEAD"] -> fails (pl_git (at_ p)) cmd) ->
  exists pre post, (forall q, q ∈ pre ++ p :: post <-> repo_within t root 1 q) /\ NoDup (pre ++ p :: post) /\
    (forall i j q q', i < j -> (pre ++ p :: post) !! i = Some q -> (pre ++ p :: post) !! j = Some q' -> path_lt q q') /\
    forall ends, (forall q, repo_within t root 1 q -> has q = true -> may sha q (ends q)) ->
      (prints t root head ends).2 = None /\
      forall x, x ∈ (prints t root head ends).1 -> exists q, q ∈ pre /\ has q = true /\ x ∈ printed_of (ends q).
Proof.
  intros Hd Ha Hl Hh Hp Hhas HU HA Ht0 Ht1 Hne Hf.
  destruct (call_setup zt parse_date graph_order (pl_git (at_ p)) (pl_tmp (at_ p)) (pl_dir (at_ p)) (code_command_opts []) k (R p) (H p) (about p) HU HA f0 f1 Ht0 Ht1
    ltac:(intros c; by apply C68_full_run)) as (s & _ & _ & _ & _ & Es & Ep & _).
  assert (Hm : exists m, code_setup zt parse_date graph_order (pl_git (at_ p)) (pl_tmp (at_ p)) (pl_dir (at_ p)) (code_command_opts sha) = Panic m).
  { unfold code_setup in *. change (read_graph graph_order (pl_git (at_ p)) (code_command_opts sha)) with (read_graph graph_order (pl_git (at_ p)) (code_command_opts [])).
    destruct (prepare _ _) as [[]|y|y]; cbn [obind] in *; [|injection Es as <-; discriminate Ep|discriminate].
    destruct (read_graph _ _ _) as [g|y|y]; cbn [obind] in *; [|injection Es as <-; discriminate Ep|discriminate].
    unfold commit_info at 1, exec_piped. rewrite Ht0. cbn [obind]. unfold metadata_log_args.
    assert (Er : metadata_revs (code_command_opts sha) = [sha ++ B "^..HEAD"]).
    { unfold metadata_revs, meta_args, code_command_opts. cbn [ro_from ro_nonincl ro_all]. destruct sha; [done|reflexivity]. }
    rewrite Er. destruct (Hf _ ltac:(right; left) Background) as [e He]. rewrite He. by eexists. }
  destruct Hm as [m Hm]. by apply (crash_in_one sha p m).
Qed.
End C90.
Print Assumptions C90_code_command_partial.
Print Assumptions C90_from_sha_partial.
Print Assumptions C90_one_failing_repository_refuted.
Print Assumptions C90_sha_elsewhere_refuted.

(** ** Examples *)

(** A checkpoint that was saved is found, as C90_from_sha_partial asks. *)
Lemma saved_found {T} hash skip k (parse_date : bytes -> option T) R H about git H1 git1 r v p disk :
  valid_history k H1 -> checkpoint_right H1 (fallback git1) r -> saved_on hash r v disk -> grown H1 git1 H git -> usable k parse_date R H about ->
  (forall c q, since R p c -> parent (g_parents R) c q -> reaches (g_parents R) p q -> is_Some (r !! q) /\ hi_tree H q <> ∅) ->
  exists P0, read_checkpoint skip disk [] = Ret P0 /\ checkpoint_right H (fallback git) (values P0) /\
    (forall c q, since R p c -> parent (g_parents R) c q -> reaches (g_parents R) p q -> is_Some (values P0 !! q)).
Proof.
  intros HV1 Hr (P & o1 & o2 & files & d & r1 & r2 & chunks & vchunks & HPv & Hs & He & Hnc & Ho1 & Ho2 & Hr1 & Hr2 & Hw & Hch & ->) [HE Hbl] HU Hold.
  destruct (files_iso hash skip P o1 o2 Hs He Ho1 Ho2) as (files' & P' & ob & ol & Hw' & Hrd & HI). rewrite Hw in Hw'. injection Hw' as <-.
  pose proof (iso_values _ _ _ _ _ HI Hnc) as Hval. rewrite HPv in Hval. exists P'. split.
  { rewrite (C40_complete_write skip d r1 r2 chunks vchunks (encode_files files) v [] Hr1 Hr2 Hch). by rewrite decide_True by tauto. }
  assert (Hright : checkpoint_right H (fallback git) r).
  { apply (grown_right H1 H HE (proj1 HV1) (fallback git1)); [|exact Hr]. intros c f Hc. unfold fallback, slow_git_blame, git_blame, blame_args. pose proof (Hbl NoContext c f Hc) as Eb. rewrite Eb. reflexivity. }
  rewrite Hval. split; [by apply right_with_files|]. intros c q Hc Hq Hpq. destruct (Hold c q Hc Hq Hpq) as [Hin Hne]. by apply (kept_with_files H (fallback git)).
Qed.

(** The directory of C56: "app" is the repository of C77 (or the one of C82 with its checkpoint), "lib.git" is empty. *)
Definition cc_has (p : path) : bool := bool_decide (p <> [B "lib.git"]).
Definition cc_head (out : bytes) (p : path) : bytes := if cc_has p then out else B "HEAD" ++ [NL].
Definition cc_place (git : bound -> list bytes -> outcome bytes) (disk : fs) (_ : path) : place := Place disk None git (fun _ => Ret (B "tmp")) (B "src/app").
Lemma cc_rest out p : cc_has p = false -> without_commits (cc_head out p).
Proof. intros E. unfold cc_head. by rewrite E. Qed.
Lemma n_ids c : is_Some (n_parents !! c) -> 8 <= length c.
Proof.
  intros Hc. assert (E : forallb (fun x : bytes * list bytes => 8 <=? length x.1) (map_to_list n_parents) = true) by (vm_compute; reflexivity).
  destruct Hc as [ps Hc]. rewrite forallb_forall in E. apply Nat.leb_le. apply (E (c, ps)). apply elem_of_list_In. by apply elem_of_map_to_list.
Qed.
Example C90_hypotheses_hold :
  is_dir ex_src /\ accessible ex_src /\ listed_in_order ex_src /\ repo_within ex_src (B "src") 1 [B "app"] /\ repo_within ex_src (B "src") 1 [B "lib.git"] /\
  (forall p, repo_within ex_src (B "src") 1 p -> cc_has p = false -> without_commits (cc_head (qb ++ [NL]) p)) /\
  (forall p, cc_has p = true -> ready 3 any_date q_repo q_hist q_about (cc_head (qb ++ [NL]) p) (cc_place q_git (FS None None) p)) /\
  Selection.simple_name qb /\ usable 3 any_date n_repo2 n_hist n_about /\ answers n_repo2 n_hist n_about n_git [] [qb ++ B "^..HEAD"] /\
  (forall c, is_Some (g_parents n_repo2 !! c) -> 8 <= length c) /\ starts_after n_repo2 (code_command_opts qb) qa /\
  (exists P0, read_checkpoint no_skip n_disk [] = Ret P0 /\ checkpoint_right n_hist (fallback n_git) (values P0) /\
    (forall c q, since n_repo2 qa c -> parent (g_parents n_repo2) c q -> reaches (g_parents n_repo2) qa q -> is_Some (values P0 !! q))) /\
  (forall f0 f1, exists cmd, cmd ∈ log_commands f0 f1 [] /\ fails (q_failing (B "-p")) cmd) /\
  (forall x, q_failing (B "-p") x [B "rev-parse"; B "HEAD"] = q_git x [B "rev-parse"; B "HEAD"]).
Proof.
  destruct C56_hypotheses_hold as (H1 & H2 & H3 & H4 & _). destruct C82_hypotheses_hold as (N1 & N2 & _ & N4 & N5 & _ & N7 & N8 & N9).
  destruct (C56_found_partial ex_src (B "src") 1 H1 H2 H3) as (calls & Ec & Hc & _). rewrite H4 in Ec. injection Ec as <-.
  split; [exact H1|]. split; [exact H2|]. split; [exact H3|]. split; [apply Hc; left|]. split; [apply Hc; right; left|]. split; [intros p _; apply cc_rest|].
  split.
  { intros p Hp. split; [exact q_usable|exact (q_answers false)| |unfold cc_head; by rewrite Hp|by exists (B "tmp"), (B "tmp")].
    intros c Hk. apply n_ids. destruct Hk as [ps Hk]. unfold n_parents. destruct (decide (qd = c)) as [<-|Hn]; [rewrite lookup_insert; by eexists|]. rewrite lookup_insert_ne by exact Hn. by exists ps. }
  split; [exact n_name|]. split; [exact N1|]. split; [exact N2|]. split; [exact n_ids|]. split; [exact N4|].
  split; [exact (saved_found ex_hash no_skip 3 any_date n_repo2 n_hist n_about n_git q_hist q_git n_left qb qa n_disk q_valid N8 N9 N7 N1 N5)|].
  split; [|intros x; by apply q_works; intros Hx; repeat (apply elem_of_cons in Hx as [Hx|Hx]; [discriminate Hx|]); apply elem_of_nil in Hx].
  intros f0 f1. eexists. split; [right; right; left|]. intros x. exists (B "killed"). apply q_fails. do 5 right. left.
Qed.
