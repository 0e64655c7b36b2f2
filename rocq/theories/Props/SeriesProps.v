(** * C84: a series of calls of Code over a repository that grows *)
From Verif.Model Require Import Base GoStrings IncBlame LogParser ParentsGraph Process Msgp Checkpoint CheckpointFS CommitMeta FileInfo CodeInfo Net Pipeline GitBlame LogArgs Api.
From Verif.Spec Require Import Text UnifiedDiff Attribution GitLog CommitGraph History Processing Checkpoint Resuming Records MetaLog EndToEnd Delivery Selection GitAnswers Continuing Series.
From Verif.Proofs Require Import TextLemmas GraphExamples SelectionProofs ProcessExamples CheckpointExamples ApiProofs IncrementalProofs SeriesProofs.
From Verif.Props Require Import MetaProps ProcessProps RecordProps PipelineProps GraphProps CheckpointProps EndToEndProps SelectionProps ApiProps IncrementalProps.
From Coq Require Import Lia.

(** C84: after any number of calls, each continuing where the one before ended, the next one works as well: in every schedule it ends, without a
    crash, and the caller receives exactly the right records of the commits since then, however the repository has branched and merged.

    Partial: the restrictions of [usable] (as in C60), no empty trees (C37), and no call is about commits with more than 1000 parents (older
    commits may be missing in its checkpoint, C33). *)
Theorem C84_next_call_partial {T L} (zt : T) parse_date (cl : classifiers L) count skip hash k l c0 r v c p :
  detector_works cl -> series zt parse_date cl count skip hash k l c0 r v -> next_call parse_date hash k c0 r v c p -> works zt parse_date cl count skip c p.
Proof.
  intros Hdet HS HN. destruct (series_inv zt parse_date cl count skip hash k Hdet l c0 r v HS) as (css & _ & HI & _).
  destruct (next_works zt parse_date cl count skip hash k Hdet c0 r v (concat css) c p HI HN) as (s & Es & cs & xs & w & Hcs & Hlast & HF & _ & HD).
  exists s. split; [exact Es|]. exists cs, xs, w. split; [exact Hcs|]. split; [|exact HD]. split; [apply Hcs|]. split; [exact Hlast|]. exists xs. split; [exact HF|reflexivity].
Qed.
Print Assumptions C84_next_call_partial.

(** C84: together the calls have given the caller, for each commit on HEAD as it was at the last call, its records, and they are right. *)
Theorem C84_everything_delivered_partial {T L} (zt : T) parse_date (cl : classifiers L) count skip hash k l c r v :
  detector_works cl -> series zt parse_date cl count skip hash k l c r v ->
  exists css, Forall2 (call_right zt) l css /\ forall x, reaches (g_parents (k_repo c)) (g_head (k_repo c)) x -> x ∈ concat css.
Proof.
  intros Hdet HS. destruct (series_inv zt parse_date cl count skip hash k Hdet l c r v HS) as (css & HF & HI & _). exists css. split; [exact HF|]. apply HI.
Qed.
Print Assumptions C84_everything_delivered_partial.

(** C84: and each commit exactly once, if the later calls use CommitFromMakeNonIncl and HEAD moves forward. *)
Theorem C84_each_commit_once_partial {T L} (zt : T) parse_date (cl : classifiers L) count skip hash k l c r v :
  detector_works cl -> series zt parse_date cl count skip hash k l c r v -> forward l ->
  exists css, Forall2 (call_right zt) l css /\ lists_exactly (concat css) (reaches (g_parents (k_repo c)) (g_head (k_repo c))).
Proof.
  intros Hdet HS Hfw. destruct (series_inv zt parse_date cl count skip hash k Hdet l c r v HS) as (css & HF & HI & HO). exists css. split; [exact HF|].
  destruct (HO Hfw) as (Hnd & _ & Hin). split; [exact Hnd|]. intros x. split; [apply Hin|apply HI].
Qed.
Print Assumptions C84_each_commit_once_partial.

(** ** An example: the two repositories of C82 *)
Definition s_call1 : @call N := Call q_repo q_hist q_about q_git (fun _ => Ret (B "tmp")) [] (ROpts [] false false false) (FS None None) None pl_orders map_to_list (fun _ => id_orders).
Definition s_call2 : @call N := Call n_repo2 n_hist n_about n_git (fun _ => Ret (B "tmp")) [] n_opts n_disk None pl_orders map_to_list (fun _ => id_orders).

Example C84_hypotheses_hold :
  detector_works pl_cl /\
  (exists rs r, series 0%N any_date pl_cl ex_count no_skip ex_hash 3 [(s_call1, rs)] s_call1 r qb /\ is_Some (r !! qa) /\ is_Some (r !! qb)) /\
  next_call any_date ex_hash 3 s_call1 n_left qb s_call2 qa.
Proof.
  assert (Hd : detector_works pl_cl) by (intros p c; exists None; reflexivity).
  split; [exact Hd|]. destruct C82_hypotheses_hold as (H1 & H2 & H3 & H4 & H5 & H6 & H7 & H8 & H9). split.
  - assert (Hfirst : first_call any_date 3 s_call1).
    { split; [|split; [reflexivity|]].
      - split; [exact q_usable|]. split; [exact (q_answers false)|]. split; [by eexists|]. split; [by eexists|]. split; [exact pl_orders_any|]. split; [reflexivity|]. exact (fun _ => id_orders_any).
      - exists [qa; qb; qc]. split; [cbn; lia|]. intros c q _ Hq. pose proof (proj1 q_valid c q Hq) as Hk. destruct (q_known q Hk) as [->|[->| ->]]; in_list. }
    destruct (C77_code_call_partial 0%N any_date pl_cl ex_count pl_orders map_to_list (fun _ => id_orders) no_skip (FS None None) None q_git (fun _ => Ret (B "tmp")) [] (ROpts [] false false false)
      3 q_repo q_hist q_about (B "tmp") (B "tmp") q_usable (q_answers false) eq_refl eq_refl eq_refl pl_orders_any (fun g => reflexivity _) (fun _ => id_orders_any) Hd)
      as (s & Es & Hrest). cbv zeta in Hrest. destruct Hrest as (cs & xs & w & Hcs & Hlast & _ & Hleft & _ & (c & Hc & Hfin) & Hrun).
    destruct (Hrun c Hc) as (_ & _ & _ & Hf). destruct (Hf Hfin) as (_ & _ & _ & Hret).
    assert (Hsel : forall x, selected q_repo false x <-> x ∈ [qa; qb]) by (intros x; symmetry; apply (proj2 (q_selected false))).
    destruct w as [[r v]|].
    + exists (received c), r. assert (HS : series 0%N any_date pl_cl ex_count no_skip ex_hash 3 [(s_call1, received c)] s_call1 r v).
      { apply series_first; [exact Hfirst|]. exists s, c. split; [exact Es|]. split; [exact Hc|]. split; [exact Hfin|]. split; [exact Hret|reflexivity]. }
      destruct (series_inv 0%N any_date pl_cl ex_count no_skip ex_hash 3 Hd _ _ _ _ HS) as (css & _ & HI & HO).
      assert (Hfw : forward [(s_call1, received c)]) by (split; [intros x [= <-]; reflexivity|split; [intros i x Hx; discriminate Hx|intros i x y _ Hy; discriminate Hy]]).
      destruct (HO Hfw) as (_ & Hv & _). change (g_head (k_repo s_call1)) with qb in Hv. subst v. split; [exact HS|].
      assert (Hba : reaches q_parents qb qa) by (apply rtc_once; change (qa ∈ hparents q_hist qb); replace (hparents q_hist qb) with [qa] by lk; left).
      split; apply (iv_stored _ _ _ _ _ _ HI), (iv_head _ _ _ _ _ _ HI); [exact Hba|apply rtc_refl].
    + exfalso. cbn in Hleft. subst cs. assert (Hx : qa ∈ (@nil bytes)) by (apply Hcs, Hsel; left). by apply elem_of_nil in Hx.
  - split; [|split; [exact H7|split; [exact H9|split; [reflexivity|split; [exact H3|split; [exact H4|split]]]]]].
    + split; [exact H1|]. split; [exact H2|]. split; [by eexists|]. split; [by eexists|]. split; [exact pl_orders_any|]. split; [reflexivity|]. exact (fun _ => id_orders_any).
    + exists [qa; qb]. split; [cbn; lia|]. intros c q _ Hq. apply n_step in Hq as [[_ ->]|[_ ->]]; in_list.
    + intros x Hx E. apply n_known in Hx as [->|Hx]; [|destruct (q_known x Hx) as [->|[->| ->]]]; apply (f_equal (lookup f_)) in E; vm_compute in E; discriminate E.
Qed.
