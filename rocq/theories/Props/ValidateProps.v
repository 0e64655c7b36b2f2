(** * C76: the command that compares the incremental blame with git blame *)
From Verif.Model Require Import Base GoStrings IncBlame CommitMeta Process GitBlame Validate.
From Verif.Spec Require Import Text Attribution GitLog CommitGraph History Porcelain Validation.
From Verif.Proofs Require Import TextLemmas LogParse GitBlameProofs ProcessExamples TrimProofs ValidateProofs.
From Coq Require Import Lia.

(** The full property: if the command reports success, then for every commit and every file of it git blame gives the same lines. *)
Definition C76_full : Prop :=
  forall git ord repo run ms, (forall l, ord l ≡ₚ l) -> validate_repo git ord repo run = Ret ms -> Success repo ∈ ms ->
    forall r p b, r ∈ run.1 -> r_files r !! p = Some b -> exists ls, git_blame git (r_commit r) p = Ret ls /\ same_blame (b_lines b) ls.

(** What holds: every file of every commit is announced, and a file is complained about exactly if it has at least one line and the two
    blames are not similar. *)
Theorem C76_complaints_partial git ord repo run ms : (forall l, ord l ≡ₚ l) -> validate_repo git ord repo run = Ret ms ->
  (forall c p, complains ms c p <-> exists r b ls, r ∈ run.1 /\ r_commit r = c /\ r_files r !! p = Some b /\ b_lines b <> [] /\
     git_blame git c p = Ret ls /\ ~ similar_blame (b_lines b) ls) /\
  (forall r p b, r ∈ run.1 -> r_files r !! p = Some b -> CheckingFile (r_commit r) p ∈ ms).
Proof.
  intros Hord Hv. destruct (validate_repo_ok git ord Hord repo run ms Hv) as (_ & _ & H1 & H2). split; [|exact H2].
  destruct (proj1 (validate_repo_ret git ord Hord repo run)) as [_ Hr]; [by exists ms|].
  intros c p. rewrite H1. split.
  - intros (r & b & Hin & Hc & Hp & Hn). destruct (decide (b_lines b = [])) as [Hb|Hb]; [destruct Hn; intros Hb2; done|].
    destruct (Hr r p b Hin Hp Hb) as [ls Hg]. rewrite Hc in Hg. exists r, b, ls. do 5 (split; [done|]). intros Hs. apply Hn. intros _. by exists ls.
  - intros (r & b & ls & Hin & Hc & Hp & Hb & Hg & Hn). exists r, b. do 3 (split; [done|]). intros Hf. destruct (Hf Hb) as (ls' & Hg' & Hs).
    rewrite Hg in Hg'. injection Hg' as <-. done.
Qed.
Print Assumptions C76_complaints_partial.
(** Equal blames never cause a complaint. *)
Theorem C76_no_false_alarm git ord repo run ms : (forall l, ord l ≡ₚ l) -> validate_repo git ord repo run = Ret ms ->
  (forall r p b, r ∈ run.1 -> r_files r !! p = Some b -> exists ls, git_blame git (r_commit r) p = Ret ls /\ same_blame (b_lines b) ls) ->
  forall c p, ~ complains ms c p.
Proof.
  intros Hord Hv Ha c p Hc. destruct (proj1 (proj1 (C76_complaints_partial git ord repo run ms Hord Hv) c p) Hc) as (r & b & ls & Hr & <- & Hp & _ & Hg & Hn).
  destruct (Ha r p b Hr Hp) as (ls' & Hg' & Hs). rewrite Hg in Hg'. injection Hg' as <-. apply Hn. rewrite <- Hs. split; [by rewrite map_length|].
  intros i l1 l2 H1 H2. change (map (fun l => (l_data l, l_commit l)) (b_lines b)) with ((fun l => (l_data l, l_commit l)) <$> b_lines b) in H2.
  rewrite list_lookup_fmap, H1 in H2. injection H2 as <-. exists (trim_space (l_data l1)).
  split; [by apply trimmed_iff|]. split; [by apply trimmed_iff|]. by left.
Qed.
Print Assumptions C76_no_false_alarm.
(** For every repository: the command ends normally exactly if Run does and git blame works for every file with lines; it has no other
    way to fail than a panic. *)
Theorem C76_ends git ord repo run : (forall l, ord l ≡ₚ l) ->
  ((exists ms, validate_repo git ord repo run = Ret ms) <->
   run.2 = Ret tt /\ forall r p b, r ∈ run.1 -> r_files r !! p = Some b -> b_lines b <> [] -> exists ls, git_blame git (r_commit r) p = Ret ls) /\
  forall e, validate_repo git ord repo run <> Err e.
Proof. intros Hord. split; [exact (validate_repo_ret git ord Hord repo run)|exact (validate_repo_no_err git ord repo run)]. Qed.
Print Assumptions C76_ends.
(** For every repository: when it ends normally the last message is the one of success, whatever was found. *)
Theorem C76_success_refuted git ord repo run ms : (forall l, ord l ≡ₚ l) -> validate_repo git ord repo run = Ret ms -> last ms = Some (Success repo).
Proof. intros Hord Hv. by destruct (validate_repo_ok git ord Hord repo run ms Hv) as (_ & H & _). Qed.
Print Assumptions C76_success_refuted.

(** All repositories given to the command ([repos]: the path, git and the run of each), one after the other: it ends normally exactly if it does so
    for each of them, its only other end is a panic, and what it then has printed is about each of them in turn: one message of success for each and
    complaints about exactly the files that differ. *)
Theorem C76_all_repositories_partial ord repos : (forall l, ord l ≡ₚ l) ->
  ((exists ms, validate_all ord repos = Ret ms) <->
     forall name git run, (name, git, run) ∈ repos -> run.2 = Ret tt /\
       forall r p b, r ∈ run.1 -> r_files r !! p = Some b -> b_lines b <> [] -> exists ls, git_blame git (r_commit r) p = Ret ls) /\
  (forall e, validate_all ord repos <> Err e) /\
  forall ms, validate_all ord repos = Ret ms ->
    (forall c p, complains ms c p <-> exists name git run r b ls, (name, git, run) ∈ repos /\ r ∈ run.1 /\ r_commit r = c /\ r_files r !! p = Some b /\ b_lines b <> [] /\
       git_blame git c p = Ret ls /\ ~ similar_blame (b_lines b) ls) /\
    forall name git run, (name, git, run) ∈ repos -> Success name ∈ ms.
Proof.
  intros Hord. set (f := fun x : bytes * (bytes -> bytes -> outcome bytes) * (list result * outcome unit) => validate_repo x.1.2 ord x.1.1 x.2).
  assert (Hall : forall ms, validate_all ord repos = Ret ms -> exists mss, omapM f repos = Ret mss /\ ms = concat mss).
  { intros ms. unfold validate_all. fold f. destruct (omapM f repos) as [mss|e|e]; cbn [obind]; [|discriminate..]. intros [= <-]. by exists mss. }
  split; [|split].
  - transitivity (exists mss, omapM f repos = Ret mss).
    { split; [intros (ms & Hms); destruct (Hall ms Hms) as (mss & E & _); by exists mss|]. intros (mss & E). unfold validate_all. fold f. rewrite E. cbn [obind]. by eexists. }
    rewrite omapM_ret_iff. split.
    + intros H name git run Hin. apply (validate_repo_ret git ord Hord name run). exact (H _ Hin).
    + intros H [[name git] run] Hin. apply (validate_repo_ret git ord Hord name run). exact (H name git run Hin).
  - intros e. unfold validate_all. fold f. assert (Hn : omapM f repos <> Err e).
    { clear Hall. induction repos as [|x r IH]; [discriminate|]. cbn [omapM]. pose proof (validate_repo_no_err x.1.2 ord x.1.1 x.2) as Hx. change (forall e, f x <> Err e) in Hx.
      destruct (f x) as [m|e1|e1]; cbn [obind]; [|by destruct (Hx e1)|discriminate]. destruct (omapM f r) as [ms|e1|e1]; cbn [obind]; [discriminate| |discriminate]. intros [= ->]. by apply IH. }
    destruct (omapM f repos) as [mss|e1|e1]; cbn [obind]; [discriminate| |discriminate]. intros [= ->]. by apply Hn.
  - intros ms Hms. destruct (Hall ms Hms) as (mss & E & ->). apply omapM_ret in E. split.
    + intros c p. rewrite complains_concat. split.
      * intros (m & Hm & Hc). apply elem_of_list_lookup in Hm as [i Hi]. destruct (Forall2_lookup_r _ _ _ _ _ E Hi) as ([[name git] run] & Hx & Hv).
        destruct (proj1 (proj1 (C76_complaints_partial git ord name run m Hord Hv) c p) Hc) as (r & b & ls & Hr). exists name, git, run, r, b, ls. split; [by eapply elem_of_list_lookup_2|exact Hr].
      * intros (name & git & run & r & b & ls & Hin & Hr). apply elem_of_list_lookup in Hin as [i Hi]. destruct (Forall2_lookup_l _ _ _ _ _ E Hi) as (m & Hm & Hv).
        exists m. split; [by eapply elem_of_list_lookup_2|]. apply (C76_complaints_partial git ord name run m Hord Hv). by exists r, b, ls.
    + intros name git run Hin. apply elem_of_list_lookup in Hin as [i Hi]. destruct (Forall2_lookup_l _ _ _ _ _ E Hi) as (m & Hm & Hv).
      pose proof (C76_success_refuted git ord name run m Hord Hv) as Hl. apply elem_of_list_In, in_concat. exists m. split; [apply elem_of_list_In; by eapply elem_of_list_lookup_2|].
      apply elem_of_list_In. by apply last_Some_elem_of.
Qed.
Print Assumptions C76_all_repositories_partial.

(** A commit b whose only file has two lines of a, where git blame gives both to b. *)
Definition ex_git : bytes -> bytes -> outcome bytes := fun _ _ =>
  Ret (B "b 1 1 2" ++ [NL] ++ B "author A" ++ [NL; TAB] ++ B "}" ++ [NL] ++ B "b 2 2" ++ [NL; TAB] ++ B "package main" ++ [NL]).
Definition ex_short : list result * outcome unit :=
  ([Result (B "b") {[ B "m" := Blame (B "b") [Line (B "}") (B "a"); Line (B " package main") (B "b")] false ]}], Ret tt).
Definition ex_long : list result * outcome unit :=
  ([Result (B "b") {[ B "m" := Blame (B "b") [Line (B "}") (B "a"); Line (B "package main") (B "a")] false; B "d" := Blame (B "b") [] false ]}], Ret tt).
(** Success is reported although the second line has another commit; and nothing is said of the first line, which is short. *)
Theorem C76_hypotheses_hold : exists ms1 ms2,
  validate_repo ex_git (fun l => l) (B "r") ex_long = Ret ms1 /\ complains ms1 (B "b") (B "m") /\ Success (B "r") ∈ ms1 /\
  validate_repo ex_git (fun l => l) (B "r") ex_short = Ret ms2 /\ forall c p, ~ complains ms2 c p.
Proof.
  eexists _, _. split; [vm_compute; reflexivity|].
  split; [exists (InvalidCommit (B "b") (B "m") 1); split; [|right; left; by eexists]; cbn; set_solver|].
  split; [cbn; set_solver|]. split; [vm_compute; reflexivity|].
  intros c p (m & Hm & Hc). rewrite ?elem_of_cons, elem_of_nil in Hm.
  destruct Hm as [->|[->|[->|[]]]]; destruct Hc as [[=]|[[? [=]]|[? [=]]]].
Qed.
Theorem C76_full_refuted : ~ C76_full.
Proof.
  intros H. destruct C76_hypotheses_hold as (ms & _ & Hv & _ & Hs & _).
  destruct (H ex_git (fun l => l) (B "r") ex_long ms ltac:(reflexivity) Hv Hs (Result (B "b") (r_files (hd (Result [] ∅) ex_long.1))) (B "m")
    (Blame (B "b") [Line (B "}") (B "a"); Line (B "package main") (B "a")] false)) as (ls & Hg & Hl).
  - left.
  - vm_compute. reflexivity.
  - vm_compute in Hg. injection Hg as <-. vm_compute in Hl. discriminate Hl.
Qed.
Print Assumptions C76_full_refuted.
(** Two blames that differ although nothing is reported: the commit of a short line, and blanks around a line. *)
Theorem C76_silent_refuted : exists ls, git_blame ex_git (B "b") (B "m") = Ret ls /\
  let ls1 := [Line (B "}") (B "a"); Line (B " package main") (B "b")] in similar_blame ls1 ls /\ ~ same_blame ls1 ls.
Proof.
  exists [(B "}", B "b"); (B "package main", B "b")]. split; [vm_compute; reflexivity|]. cbv zeta. split; [|vm_compute; discriminate].
  split; [reflexivity|]. intros i l1 l2 H1 H2. destruct i as [|[|i]]; [| |discriminate H1].
  - injection H1 as <-. injection H2 as <-. exists (B "}"). rewrite !trimmed_iff. split; [vm_compute; reflexivity|]. split; [vm_compute; reflexivity|]. right. cbn. lia.
  - injection H1 as <-. injection H2 as <-. exists (B "package main"). rewrite !trimmed_iff. split; [vm_compute; reflexivity|]. split; [vm_compute; reflexivity|]. left. reflexivity.
Qed.
Print Assumptions C76_silent_refuted.
