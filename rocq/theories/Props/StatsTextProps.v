(** * C101: the statistics that the code command prints *)
From Verif.Model Require Import Base GoStrings IncBlame LogParser ParentsGraph Process Timing Msgp Checkpoint CheckpointFS CommitMeta FileInfo CodeInfo Net Pipeline Stats StatsText.
From Verif.Spec Require Import Text GitLog History Processing Delivery Records Statistics StatsReport.
From Verif.Proofs Require Import StatsProofs StatsTextProofs ProcessExamples CheckpointExamples.
From Verif.Props Require Import ProcessProps RecordProps PipelineProps StatsProps.
From Coq Require Import Lia.

(** After a call that did not fail, the text that the command prints is the report about exactly the commits delivered by the call and the files looked at by
    all the calls on the object. *)
Theorem C101_report {T L : Type} (zt : T) (cl : classifiers L) (count : bytes -> bytes -> bytes -> list (Z * line_type) * totals) (meta : gmap bytes (mcommit T)) (fdur : nat -> Z)
    (orders : nat -> list (bytes * blame) -> list (bytes * blame)) dt srt dur skip e o disk log write_err before cache out oc w xs :
  sorts_desc srt -> used_cache cl cache -> run_top skip e o disk log = (out, oc, w) -> records_for zt cl count meta orders cache 0 out xs ->
  exists cache' f, all_files_t zt cl count meta fdur orders cache (sh_files before) 0 out = Ret (cache', xs, f) /\
    let ret := with_write write_err oc w in let printed := output_stats dt ret (shown_after before ret (run_timing srt dur e skip o disk log) f) in
    let n := length (filter looked_at (concat xs)) in
    (ret = Ret tt -> report dt (env_parents e) (zip (map r_commit out) (map dur (seq 0 (length out)))) (ft_count (sh_files before) + n)
                       (ft_time (sh_files before) + total (map fdur (seq (ft_count (sh_files before)) n))) printed) /\
    (ret <> Ret tt -> printed = []).
Proof.
  intros Hs Hc Hr Hx. destruct (C99_after_call zt cl count meta fdur orders srt dur skip e o disk log write_err before cache out oc w xs Hs Hc Hr Hx) as (cache' & f & E & _ & H).
  exists cache', f. split; [exact E|]. cbv zeta in *. destruct H as (H1 & _ & H3 & H4). split.
  - intros Hret. specialize (H1 Hret). rewrite Hret in *. cbn [shown_after sh_git sh_files] in H1, H3, H4. rewrite <-H3, <-H4. apply report_of. exact H1.
  - intros Hret. destruct (with_write write_err oc w) as [[]|m|m]; [contradiction|reflexivity..].
Qed.

(** The printed text determines the statistics: whoever reads it can tell all of them. *)
Theorem C101_readable dt s s' : readable dt ->
  Forall (fun c => plain_id (t_commit c)) (tm_slowest (sh_git s)) -> Forall (fun c => plain_id (t_commit c)) (tm_slowest (sh_git s')) ->
  output_stats dt (Ret tt) s = output_stats dt (Ret tt) s' -> s = s'.
Proof. intros H. by apply text_inj. Qed.
Print Assumptions C101_report.
Print Assumptions C101_readable.

(** Durations in nanoseconds; the run of C99_hypotheses_hold, on an object that has looked at three files. *)
Definition ns_text (d : Z) : bytes := (if (d <? 0)%Z then B "-" else []) ++ show_nat (Z.abs_nat d) ++ B "ns".
Definition st_shown : shown := Shown (Tm 4 23 1 2 [Timed c3 9; Timed e5 8; Timed a1 5; Timed d4 2; Timed b2 1]%Z) (FilesTm 8 80).
Lemma ns_readable : readable ns_text.
Proof.
  assert (D : forall c n, TextLemmas.is_digit c = false -> c ∉ show_nat n) by (intros; by apply TextLemmas.show_nat_not_elem).
  split.
  - intros d d' H. assert (M : forall a b : nat, show_nat a ++ B "ns" = show_nat b ++ B "ns" -> a = b) by (intros a b E; apply app_inv_tail in E; by apply show_nat_inj).
    assert (X : forall a b : nat, B "-" ++ show_nat a ++ B "ns" = show_nat b ++ B "ns" -> False).
    { intros a b E. pose proof (D "-"%char b eq_refl) as Hb. destruct (show_nat b) as [|c r]; [discriminate|]. injection E as E _. subst c. apply Hb. apply elem_of_cons. by left. }
    unfold ns_text in H. destruct (Z.ltb_spec d 0) as [Hd|Hd], (Z.ltb_spec d' 0) as [Hd'|Hd'].
    + apply app_inv_head in H. apply M in H. lia.
    + exfalso. by apply (X _ _ H).
    + exfalso. symmetry in H. by apply (X _ _ H).
    + apply M in H. lia.
  - intros d. unfold ns_text. split; rewrite !not_elem_of_app; (split; [destruct (d <? 0)%Z; [|apply not_elem_of_nil]|split; [by apply D|]]); intros K;
      repeat (apply elem_of_cons in K as [K|K]; [discriminate|]); by apply elem_of_nil in K.
Qed.
Example C101_hypotheses_hold :
  readable ns_text /\ Forall (fun c => plain_id (t_commit c)) (tm_slowest (sh_git st_shown)) /\
  output_stats ns_text (Ret tt) st_shown = unlines
    [ []; B "git processor timing"; B "regular commits 4"; B "time in regular commits 23ns"; B "merges 1"; B "time in merges commits 2ns";
      B "time in 5 slowest commits 25ns"; B "slowest commits"; c3 ++ B " 9ns"; e5 ++ B " 8ns"; a1 ++ B " 5ns"; d4 ++ B " 2ns"; b2 ++ B " 1ns";
      []; B "code info timing"; B "files processed 8"; B "total time 80ns"; [] ].
Proof.
  split; [apply ns_readable|]. split; [|lk].
  apply Forall_forall. intros c Hc. assert (K : forallb (fun c => forallb (fun b => negb (bool_decide (b = SP)) && negb (bool_decide (b = NL))) (t_commit c)) (tm_slowest (sh_git st_shown)) = true) by lk.
  rewrite forallb_forall in K. apply elem_of_list_In in Hc. specialize (K c Hc). rewrite forallb_forall in K. split; intros Hb; apply elem_of_list_In in Hb; apply K in Hb; discriminate.
Qed.
Print Assumptions C101_hypotheses_hold.
