(** * C64-C66: the commands code and branches *)
From Verif.Model Require Import Base GoStrings GoSort GitRepos Commands.
From Verif.Spec Require Import Text GitLog Refs Discovery CommandLine.
From Verif.Proofs Require Import TrimProofs BranchMetaProofs GitReposProofs CommandProofs.
From Verif.Props Require Import GitReposProps.
From Coq Require Import Lia.

Section C64.
(** The tree below the directory given, the directory's name, what git rev-parse HEAD prints, and what the work on a repository gives: a number of records
    and maybe an error. *)
Context (t : node) (root : bytes) (head : path -> bytes) (run : path -> nat * option bytes).

(** Which repositories the command works on, and what it counts: all of those in the directory or one level down, each once and in order, whichever of
    them fail.  [has p]: the repository has a commit. *)
Theorem C64_every_repository has : is_dir t -> accessible t -> listed_in_order t ->
  (forall p, repo_within t root 1 p -> if has p : bool then with_commits (head p) else without_commits (head p)) ->
  exists repos s,
    (forall p, p ∈ repos <-> repo_within t root 1 p) /\ NoDup repos /\ (forall i j p q, i < j -> repos !! i = Some p -> repos !! j = Some q -> path_lt p q) /\
    run_on_dirs t root head run = (s, None) /\
    s_done s = repos /\ s_repos s = length repos /\ s_skipped s = length (filter (fun p => has p = false) repos) /\
    s_entries s = sum_list (map (fun p => (run p).1) (filter (fun p => has p = true) repos)) /\
    (forall p e, RepoError p e ∈ s_errors s <-> p ∈ repos /\ has p = true /\ (run p).2 = Some e) /\
    length (s_errors s) = length (filter (fun p => has p = true /\ (run p).2 <> None) repos).
Proof.
  intros Hd Ha Hl Hh. destruct (C56_found_partial t root 1 Hd Ha Hl) as (repos & E & H1 & H2 & H3). eexists repos, _.
  split; [exact H1|]. split; [exact H2|]. split; [exact H3|]. unfold run_on_dirs. change (fun _ _ => None) with always_ok. rewrite E, fold_on_dir. split; [reflexivity|].
  cbn [s_repos s_skipped s_entries s_errors s_done app]. assert (Hw : forall p, p ∈ repos -> has_head_commit head p = has p).
  { intros p Hp. apply H1, Hh in Hp. unfold has_head_commit. destruct (has p).
    - destruct Hp as (id & [Hid1 Hid2] & Hlen & ->). rewrite trim_bare_nl by (apply bare_id; by split). by rewrite Hlen.
    - rewrite Hp. reflexivity. }
  assert (Hf : forall b, filter (fun p => has_head_commit head p = b) repos = filter (fun p => has p = b) repos).
  { clear -Hw. intros b. induction repos as [|p ps IH]; [done|]. rewrite !filter_cons. rewrite IH by (intros q Hq; apply Hw; by right). rewrite (Hw p) by left. done. }
  rewrite !Hf. split; [done|]. split; [done|]. split; [done|]. split; [done|]. split.
  - intros p e. rewrite elem_of_list_In, in_concat. split.
    + intros (l & Hl1 & Hl2). apply in_map_iff in Hl1 as (q & <- & Hq). apply elem_of_list_In, elem_of_list_filter in Hq as [Hq1 Hq2]. unfold failed_in in Hl2. destruct (run q) as [n [e'|]] eqn:Er; [|done].
      destruct Hl2 as [[= -> ->]|[]]. by rewrite Er.
    + intros (Hp & Hhas & He). exists (failed_in run p). split; [apply in_map, elem_of_list_In, elem_of_list_filter; done|]. unfold failed_in. rewrite He. by left.
  - clear. induction repos as [|p ps IH]; [done|]. rewrite !filter_cons. destruct (decide (has p = true)) as [Hp|Hp].
    + cbn [map concat]. rewrite app_length, IH. unfold failed_in. destruct (run p) as [n [e|]] eqn:Er; cbn [fst snd].
      * rewrite decide_True by (split; [done|discriminate]). done.
      * rewrite decide_False by (intros [_ ?]; done). done.
    + rewrite IH. rewrite (decide_False (P := has p = true /\ _)) by (intros [? _]; done). done.
Qed.

(** Even when part of the tree cannot be read: only repositories are worked on, none twice, in order, and the error is reported. *)
Theorem C64_unreadable s e : listed_in_order t -> run_on_dirs t root head run = (s, e) ->
  (forall p, p ∈ s_done s -> repo_within t root 1 p) /\ NoDup (s_done s) /\ s_repos s = length (s_done s) /\
  (e = None -> forall p, repo_within t root 1 p -> p ∈ s_done s) /\
  (forall m, e = Some m -> exists ms, (command t root head run).1 = FailedWith (DirError m) :: ms).
Proof.
  intros Hl E. assert (E0 := E). unfold run_on_dirs in E. change (fun _ _ => None) with always_ok in E. destruct (iter_dir always_ok t [] root 1 []) as [calls e'] eqn:Ei. injection E as <- <-.
  destruct (C56_nothing_else t root 1 always_ok calls e' Hl Ei) as (H1 & H2 & _ & H4). rewrite fold_on_dir. cbn [s_done s_repos app]. split; [done|]. split; [done|]. split; [done|]. split; [done|].
  intros m ->. unfold command. rewrite E0. destruct (match s_errors _ with [] => _ | _ => _ end) as [m2 exit]. destruct exit; eexists; reflexivity.
Qed.

(** C65: every failure is printed, and the status is 0 only together with the final line. *)
Theorem C65_printed_partial s e : run_on_dirs t root head run = (s, e) ->
  let out := (command t root head run).1 in
  (forall m, e = Some m -> FailedWith (DirError m) ∈ out) /\
  (forall f, f ∈ s_errors s -> FailedWith f ∈ out \/ OneOf f ∈ out) /\
  ((command t root head run).2 = 0 <-> Finished (s_repos s) (s_entries s) ∈ out) /\
  (2 <= length (s_errors s) <-> (command t root head run).2 = 1).
Proof.
  intros E. unfold command. rewrite E. cbn [fst]. assert (Hne : forall x m, e = m -> Finished x (s_entries s) ∉ match m with Some e => exit_with_err (DirError e) | None => [] end).
  { intros x m _ Hin. destruct m; [|by apply elem_of_nil in Hin]. apply elem_of_cons in Hin as [?|Hin]; [done|by apply elem_of_nil in Hin]. }
  destruct (s_errors s) as [|f [|f' fs]] eqn:Es; cbn [exit_with_errs fst snd].
  - split; [intros m ->; apply elem_of_app; left; by left|]. split; [intros f Hf; by apply elem_of_nil in Hf|]. split; [|cbn; split; lia].
    split; [|done]. intros _. rewrite !elem_of_app. right. right. right. right. by left.
  - split; [intros m ->; apply elem_of_app; left; by left|]. split; [|split; [|cbn; split; lia]].
    + intros g Hg. apply elem_of_cons in Hg as [->|Hg]; [|by apply elem_of_nil in Hg]. left. rewrite !elem_of_app. right. left. by left.
    + split; [|done]. intros _. rewrite !elem_of_app. right. right. right. right. by left.
  - split; [intros m ->; apply elem_of_app; left; by left|]. split; [|split; [|cbn; split; lia]].
    + intros g Hg. right. rewrite !elem_of_app. right. left. change (OneOf g ∈ (OneOf <$> (f :: f' :: fs))). by apply elem_of_list_fmap_1.
    + split; [done|]. rewrite elem_of_app. intros [Hin|Hin]; [by apply (Hne _ _ eq_refl) in Hin|]. exfalso. apply elem_of_app in Hin as [Hin|Hin].
      * change (Finished (s_repos s) (s_entries s) ∈ (OneOf <$> (f :: f' :: fs))) in Hin. by apply elem_of_list_fmap in Hin as (? & ? & _).
      * apply elem_of_cons in Hin as [?|Hin]; [done|by apply elem_of_nil in Hin].
Qed.
(** C65 is false: unless two repositories fail the status is 0 and the last line says that the work is finished.  In particular if the only
    repository fails, if there is none, or if the directory cannot be read. *)
Theorem C65_status_zero_refuted s e : run_on_dirs t root head run = (s, e) -> length (s_errors s) <= 1 ->
  (command t root head run).2 = 0 /\ last (command t root head run).1 = Some (Finished (s_repos s) (s_entries s)).
Proof.
  intros E Hs. unfold command. rewrite E. destruct (s_errors s) as [|f [|f' fs]]; [| |cbn in Hs; lia]; cbn [exit_with_errs]; (split; [done|]); cbn [fst]; rewrite !app_assoc; apply last_snoc.
Qed.
End C64.
Print Assumptions C64_every_repository.
Print Assumptions C64_unreadable.
Print Assumptions C65_printed_partial.
Print Assumptions C65_status_zero_refuted.

(** A repository whose commit ids have 64 digits (git's SHA-256 format) is taken for an empty one: nothing is done for it and the command succeeds. *)
Theorem C64_sha256_refuted es root (id : bytes) run : entry_of (B ".git") es = Some (Dir true true []) -> commit_id id -> length id = 64 ->
  command (Dir true true es) root (fun _ => id ++ [NL]) run = ([SkippedEmpty 1; Finished 1 0], 0).
Proof.
  intros Hg [Hid1 Hid2] Hlen. unfold command, run_on_dirs. rewrite iter_dir_eq. unfold dir_contains_dir. rewrite Hg. cbn [fold_left app].
  assert (E : has_head_commit (fun _ => id ++ [NL]) [] = false).
  { unfold has_head_commit. rewrite trim_bare_nl by (apply bare_id; by split). by rewrite Hlen. }
  unfold on_dir, run_on_repo. rewrite E. reflexivity.
Qed.
Print Assumptions C64_sha256_refuted.

(** ** The line printed for a record *)
From Verif.Model Require Import IncBlame Process CommitMeta FileInfo CodeInfo.
From Verif.Spec Require Import Processing Records.
From Verif.Props Require Import RecordProps.

(** C66: the status shown is the record's, and showing it does not fail; loc, sloc, comments and complexity are the record's. *)
Theorem C66_line_partial {T L} zt (cl : classifiers L) count (meta : gmap bytes (mcommit T)) order cache x commit cache' rs r :
  any_perm order -> used_cache cl cache -> meta !! r_commit x = Some commit -> code_info_files zt cl count meta order cache x = Ret (cache', rs) -> r ∈ rs ->
  printed_status r = Ret (br_status r) /\
  (B "loc", t_lines (br_totals r)) ∈ printed_numbers r /\ (B "sloc", t_code (br_totals r)) ∈ printed_numbers r /\
  (B "comments", t_comment (br_totals r)) ∈ printed_numbers r /\ (B "complexity", t_complexity (br_totals r)) ∈ printed_numbers r.
Proof.
  intros H1 H2 H3 H4 H5. destruct (C47_one_record_per_file zt cl count meta order cache x commit cache' rs H1 H2 H3 H4) as (_ & _ & H). destruct (H r H5) as (E & f & Hf & Hs & _).
  split; [unfold printed_status; by rewrite E, Hf, Hs|]. unfold printed_numbers. split; [by left|]. split; [right; by left|]. split; [do 2 right; by left|]. do 4 right. by left.
Qed.
(** C66 is false for blank lines: the number shown as blanks is that of the comments. *)
Theorem C66_blanks_refuted {T L} (r : bresult T L) b : (B "blanks", b) ∈ printed_numbers r <-> b = t_comment (br_totals r).
Proof.
  unfold printed_numbers. split; [|intros ->; do 3 right; left]. intros H. repeat (apply elem_of_cons in H as [H|H]; [first [discriminate H|injection H as ->; reflexivity]|]). by apply elem_of_nil in H.
Qed.
Print Assumptions C66_line_partial.
Print Assumptions C66_blanks_refuted.

(** ** A concrete directory: the one of C56, "app" fails *)
Definition ex_id : bytes := B "0123456789012345678901234567890123456789".
Definition ex_head (p : path) : bytes := if decide (p = [B "lib.git"]) then B "HEAD" ++ [NL] else ex_id ++ [NL].
Definition ex_run (p : path) : nat * option bytes := (7, Some (B "no such commit")).
Example C64_hypotheses_hold :
  (forall p, repo_within ex_src (B "src") 1 p -> if bool_decide (p <> [B "lib.git"]) then with_commits (ex_head p) else without_commits (ex_head p)) /\
  is_dir ex_src /\ accessible ex_src /\ listed_in_order ex_src /\
  command ex_src (B "src") ex_head ex_run =
    ([FailedWith (RepoError [B "app"] (B "no such commit")); SkippedEmpty 1; Finished 2 7], 0).
Proof.
  destruct C56_hypotheses_hold as (H1 & H2 & H3 & _). split; [|split; [exact H1|split; [exact H2|split; [exact H3|vm_compute; reflexivity]]]].
  intros p _. unfold ex_head. case_bool_decide as E.
  - rewrite decide_False by done. exists ex_id. split; [split; [discriminate|vm_compute; reflexivity]|]. split; reflexivity.
  - destruct (decide (p = [B "lib.git"])) as [?|Hn]; [reflexivity|]. by destruct (Hn E).
Qed.
Example C64_sha256_hypotheses_hold : exists es id, entry_of (B ".git") es = Some (Dir true true []) /\ commit_id id /\ length id = 64.
Proof.
  exists [(B ".git", Dir true true [])], (repeat "a"%char 64). split; [reflexivity|]. split; [split; [discriminate|vm_compute; reflexivity]|reflexivity].
Qed.
