(** * C57, C58: the same history, printed in another way *)
From Verif.Model Require Import Base GoStrings GoSort IncBlame LogParser ParentsGraph Process Msgp Checkpoint CheckpointFS CommitMeta FileInfo CodeInfo Net Pipeline.
From Verif.Spec Require Import Text UnifiedDiff Attribution GitLog CommitGraph History Processing Records Delivery Repeat Presentation.
From Verif.Proofs Require Import TextLemmas LogParse GraphExamples ParentsGraphProofs BlameOf ProcessExamples MergeOrder CheckpointExamples NetProofs PipelineProofs PipelineMore RepeatProofs PresentationProofs.
From Verif.Props Require Import ProcessProps RecordProps PipelineProps RepeatProps.
From Coq Require Import Lia.

(** ** C57: the number of lines of context

    Partial: for two or more lines (with one the property is false, see C57_one_line_of_context_refuted). *)

(** One change of one file, printed with [k] and with [k'] lines of context, the hunks joined or not: Parse and Apply give the same blame. *)
Theorem C57_same_blame_partial k k' p p' hs hs' tail tail' file commit :
  2 <= k -> 2 <= k' -> wf_patch p -> wf_patch p' -> short_lines (patch_lines p) -> short_lines (patch_lines p') ->
  fp_body p = FBText hs -> fp_body p' = FBText hs' -> (forall q m, fp_kind p <> FDelete q m) -> (forall q m, fp_kind p' <> FDelete q m) ->
  has_context k 0 true hs -> has_context k' 0 true hs' -> script hs tail = script hs' tail' ->
  b_binary file = false -> length (b_lines file) = length (old_text (script hs tail)) ->
  exists d d' b, parse (render_patch p) = Ret d /\ parse (render_patch p') = Ret d' /\ apply file d commit = Ret b /\ apply file d' commit = Ret b.
Proof. apply patches_same. Qed.
Print Assumptions C57_same_blame_partial.

(** A whole history: with any two settings of the context the run over the printed log ends in the same state, with the same results. *)
Theorem C57_same_run_partial k k' H H' slow e e' before r0 cs :
  run_ready H slow k e before r0 cs -> run_ready H' slow k' e' before r0 cs -> same_history H H' -> hi_meta H = hi_meta H' ->
  short_lines (log_lines (git_log H cs)) -> short_lines (log_lines (git_log H' cs)) ->
  exists s, process_log e (pst_init r0) (log_run (render_log (git_log H cs))).1 = (s, Ret tt) /\
    process_log e' (pst_init r0) (log_run (render_log (git_log H' cs))).1 = (s, Ret tt).
Proof. intros A B C _. exact (texts_same H H' slow k k' e e' before r0 cs A B C). Qed.
Print Assumptions C57_same_run_partial.

(** ** C58: presentation options

    Partial: for the options that change the number of context lines (two or more), the joining of hunks, the headings of hunks, the ids and the
    similarity shown for a file, and the author and message lines of a commit.  For diff.suppressBlankEmpty, diff.noprefix and log.decorate the property
    is false (C58_suppress_blank_empty_refuted, C58_noprefix_refuted, C58_decorate_refuted). *)
Theorem C58_same_run_partial k k' H H' slow e e' before r0 cs :
  run_ready H slow k e before r0 cs -> run_ready H' slow k' e' before r0 cs -> same_history H H' ->
  short_lines (log_lines (git_log H cs)) -> short_lines (log_lines (git_log H' cs)) ->
  exists s, process_log e (pst_init r0) (log_run (render_log (git_log H cs))).1 = (s, Ret tt) /\
    process_log e' (pst_init r0) (log_run (render_log (git_log H' cs))).1 = (s, Ret tt).
Proof. apply texts_same. Qed.
Print Assumptions C58_same_run_partial.

(** The stream of Code: if a call on the one printing returned nil with the records [received c1], every call on the other printing (any schedule, any
    iteration orders, any history of the file cache) ends, returns nil and delivers the same records, commit by commit, and the same checkpoint. *)
Section Calls.
Context {T L : Type} (zero_time : T) (cl : classifiers L).
Context (count : bytes -> bytes -> bytes -> list (Z * line_type) * totals) (meta : gmap bytes (mcommit T)).
Context (skip : bytes -> pres unit) (o : popts) (disk : fs).
Notation act orders cache e text wr := (act zero_time cl count meta orders cache skip e o disk text None None wr).
Notation call := (code_call (T := T) (L := L)).
Theorem C58_same_records_partial k k' H H' slow e e' before r0 cs orders1 orders2 cache1 cache2 c1 w :
  run_ready H slow k e before r0 cs -> run_ready H' slow k' e' before r0 cs -> same_history H H' ->
  short_lines (log_lines (git_log H cs)) -> short_lines (log_lines (git_log H' cs)) -> init_checkpoints skip o disk = Ret r0 ->
  (forall n, any_perm (orders1 n)) -> (forall n, any_perm (orders2 n)) -> used_cache cl cache1 -> used_cache cl cache2 ->
  let act1 := act orders1 cache1 e (render_log (git_log H cs)) None in
  let act2 := act orders2 cache2 e' (render_log (git_log H' cs)) None in
  rtc (step act1) call c1 -> final act1 c1 -> returned c1 = Some (Ret tt, w) ->
  (exists n, forall m c2, nsteps (step act2) m call c2 -> m <= n) /\
  forall c2, rtc (step act2) call c2 ->
    ~ crashing act2 c2 /\ (final act2 c2 -> returned c2 = Some (Ret tt, w) /\ same_by_commit (received c1) (received c2)).
Proof.
  intros HR HR' HS Hs Hs' Hi Ho1 Ho2 Hu1 Hu2 act1 act2 Hc1 Hfin1 Hret1.
  destruct (run_top_printings H H' slow k k' e e' before r0 cs skip o disk HR HR' HS Hs Hs' Hi) as (Hpo & Hpo' & Htop).
  destruct (returned_nil zero_time cl count meta orders1 cache1 skip e o disk _ None c1 w Hpo Hc1 Hret1) as (out & xs & Hrun & Hxs & _).
  destruct (C53_every_schedule zero_time cl count meta orders1 cache1 skip e o disk _ None out w xs Hpo Hrun Hxs) as [_ Hall1].
  destruct (Hall1 c1 Hc1) as (_ & _ & _ & Hf1). destruct (Hf1 Hfin1) as (_ & Er1 & _ & _).
  destruct (records_same zero_time cl count meta orders1 orders2 Ho1 Ho2 out cache1 cache2 0 xs Hu1 Hu2 Hxs) as (xs2 & Hxs2 & HF).
  pose proof Hrun as Hrun2. rewrite Htop in Hrun2.
  destruct (C53_every_schedule zero_time cl count meta orders2 cache2 skip e' o disk _ None out w xs2 Hpo' Hrun2 Hxs2) as [Hb Hall2].
  split; [exact Hb|]. intros c2 Hc2. destruct (Hall2 c2 Hc2) as (Hnc & _ & _ & Hf2). split; [exact Hnc|]. intros Hfin2.
  destruct (Hf2 Hfin2) as (_ & Er2 & _ & Hr2). split; [rewrite Hr2; by destruct w|]. rewrite Er1, Er2. by exists xs, xs2.
Qed.
End Calls.
Print Assumptions C58_same_records_partial.

(** ** The hypotheses can be met: one file of eight lines, the last of which is changed, printed with three and with two lines of context, with another
    heading, other ids, another author and message. *)
Definition old_lines : list bytes := [B "1"; B "2"; B "3"; B "4"; B "5"; B "6"; B "7"; B "8"].
Definition new_lines : list bytes := [B "1"; B "2"; B "3"; B "4"; B "5"; B "6"; B "7"; B "eight"].
Definition the_change (g : nat) : list edit := map Keep (drop g (take 7 old_lines)) ++ [Del (B "8"); Add (B "eight")].
Definition ch_hunk (g : nat) (heading : bytes) : shunk := SHunk (take g old_lines) (map (fun e => (e, false)) (the_change g)) heading.
Definition ch_patch (g : nat) (ids heading : bytes) : fpatch := FPatch (FModify f_ None) (Some ids) (FBText [ch_hunk g heading]).
Definition T_old : tree := {[ f_ := txt old_lines ]}.
Definition T_new : tree := {[ f_ := txt new_lines ]}.
Definition two_parents : graph := {[ a1 := []; b2 := [a1] ]}.
Definition two_hist (g : nat) (ids heading : bytes) (m : cmeta) : history := History two_parents
  (pick ∅ [(a1, T_old); (b2, T_new)])
  (fun c p => pick [] [(a1, [creates f_ (map Add old_lines)]); (b2, [ch_patch g ids heading])] c)
  (fun _ => m).
Definition meta1 : cmeta := CMeta [] (B "A <a@x>") [B "title"] 1.
Definition meta2 : cmeta := CMeta [] (B "Someone Else <e@x>") [B "another"; B "message"] 2.
Definition hist3 : history := two_hist 4 (B "1111111..2222222 100644") [] meta1.
Definition hist2 : history := two_hist 5 (B "111111122..222222233 100644") (B "func main() {") meta2.
Definition two_commits : list bytes := [a1; b2].

Lemma creation_ok k : describes k ∅ T_old [creates f_ (map Add old_lines)].
Proof.
  apply describes_distinct; [constructor; [do_creates|constructor]| |apply (bool_decide_unpack _); vm_compute; exact I].
  intros f Hd. kase f [f_]; [covers (creates f_ (map Add old_lines))|].
  exfalso; apply Hd; unfold T_old; rewrite ?lookup_empty, ?lookup_singleton_ne by congruence; reflexivity.
Qed.
Lemma change_ok k g ids heading : (k = 3 /\ g = 4) \/ (k = 2 /\ g = 5) -> index_value ids -> no_nl heading ->
  short_lines (patch_lines (ch_patch g ids heading)) -> describes k T_old T_new [ch_patch g ids heading].
Proof.
  intros Hg Hi Hh Hs. apply describes_distinct; [| |apply NoDup_singleton].
  - constructor; [|constructor]. split; [|split; [exact Hs|]].
    + split; [split; [split; [done|lk]|done]|]. split; [exact Hi|]. split; [done|]. constructor; [|constructor]. split; [exact Hh|].
      destruct Hg as [[-> ->]|[-> ->]]; repeat constructor; by apply const_no_nl.
    + exists (txt old_lines), (txt new_lines). split; [lk|]. split; [lk|]. split; [discriminate|]. split.
      { intros (e & e' & E & E' & Hd). vm_compute in E, E'. injection E as <-. injection E' as <-. by apply Hd. }
      destruct Hg as [[-> ->]|[-> ->]].
      * split; [|exists []; split; lk]. split; [by left|]. split; [|exact I]. right. exists [B "5"; B "6"; B "7"]. eexists. split; [reflexivity|reflexivity].
      * split; [|exists []; split; lk]. split; [by left|]. split; [|exact I]. right. exists [B "6"; B "7"]. eexists. split; [reflexivity|reflexivity].
  - intros f Hd. kase f [f_].
    + split; [intros _; exists (ch_patch g ids heading); split; [apply elem_of_list_singleton; reflexivity|split; [done|reflexivity]]|intros H; vm_compute in H; discriminate H].
    + exfalso; apply Hd; unfold T_old, T_new; rewrite ?lookup_singleton_ne by congruence; reflexivity.
Qed.
Lemma two_known c : is_Some (two_parents !! c) -> c = a1 \/ c = b2.
Proof.
  intros [v Hv]. unfold two_parents in Hv. kase c [a1; b2]; [tauto..|]. exfalso. rewrite lookup_insert_ne, lookup_singleton_ne in Hv by congruence. discriminate.
Qed.
Lemma two_ready k g ids heading m o : (k = 3 /\ g = 4) \/ (k = 2 /\ g = 5) -> index_value ids -> no_nl heading -> wf_meta m ->
  short_lines (patch_lines (ch_patch g ids heading)) -> any_orders o ->
  run_ready (two_hist g ids heading m) (ex_slow (two_hist g ids heading m)) k (ex_env (two_hist g ids heading m) o) [] ∅ two_commits.
Proof.
  intros Hg Hi Hh Hm Hs Ho. split.
  - split.
    + intros x y Hp. unfold parent, parents in Hp. change (hi_parents (two_hist g ids heading m)) with two_parents in *.
      destruct (two_parents !! x) as [l|] eqn:E; [|by apply elem_of_nil in Hp].
      destruct (two_known x ltac:(by eexists)) as [->| ->]; vm_compute in E; injection E as <-;
        (repeat (apply elem_of_cons in Hp as [->|Hp]; [vm_compute; by eexists|]); by apply elem_of_nil in Hp).
    + intros c Hc. pose proof ids_ok as Hids. rewrite Forall_forall in Hids.
      destruct (two_known c Hc) as [->| ->].
      * split; [apply Hids; in_list|]. split; [constructor|]. split; [constructor|]. split; [exact Hm|]. split; [intros _; apply creation_ok|].
        intros p Hp. by apply elem_of_nil in Hp.
      * split; [apply Hids; in_list|]. split; [constructor; [apply Hids; in_list|constructor]|]. split; [apply NoDup_singleton|]. split; [exact Hm|]. split; [discriminate|].
        intros p Hp. change (p ∈ [a1]) in Hp. apply elem_of_list_singleton in Hp as ->. exact (change_ok k g ids heading Hg Hi Hh Hs).
  - destruct Hg as [[-> _]|[-> _]]; lia.
  - apply ex_slow_right.
  - apply (acyclic_check rank_of). change (hi_parents (two_hist g ids heading m)) with two_parents. lk.
  - by apply ex_env_right.
  - split; [in_list|]. split; [intros p Hp; by apply elem_of_nil in Hp|]. split; [in_list|]. split; [|exact I].
    intros p Hp. change (p ∈ [a1]) in Hp. apply elem_of_list_singleton in Hp as ->. split; in_list.
  - intros c Hc. apply elem_of_cons in Hc as [->|Hc]; [|apply elem_of_list_singleton in Hc as ->]; (split; [vm_compute; by eexists|intros Hl; vm_compute in Hl; lia]).
  - intros p Hp. by apply elem_of_nil in Hp.
Qed.
Lemma two_same g g' ids ids' heading heading' m m' : (g = 4 \/ g = 5) -> (g' = 4 \/ g' = 5) -> same_history (two_hist g ids heading m) (two_hist g' ids' heading' m').
Proof.
  intros Hg Hg'. split; [reflexivity|]. split; [reflexivity|]. intros c p. cbn [hi_diff two_hist]. unfold pick.
  destruct (decide (a1 = c)) as [<-|N1]; [|destruct (decide (b2 = c)) as [<-|N2]].
  - constructor; [|constructor]. split; [done|]. split; [done|]. exists [], []. reflexivity.
  - constructor; [|constructor]. split; [done|]. split; [done|]. exists [], []. destruct Hg as [-> | ->], Hg' as [-> | ->]; reflexivity.
  - cbn [list_find]. rewrite !(decide_False (P := a1 = c)) by exact N1. rewrite !(decide_False (P := b2 = c)) by exact N2. constructor.
Qed.
Lemma short_check ls : forallb (fun l : bytes => (N.of_nat (length l) <? 100000000)%N) ls = true -> short_lines ls.
Proof. intros E. unfold short_lines. rewrite Forall_forall. intros l Hl. rewrite forallb_forall in E. specialize (E l (proj1 (elem_of_list_In _ _) Hl)). by apply N.ltb_lt. Qed.
Ltac meta_ok := split; [apply not_elem_of_nil|split; [by apply const_no_nl|repeat (apply Forall_cons_2; [by apply const_no_nl|]); apply Forall_nil_2]].
Lemma hist3_ready o : any_orders o -> run_ready hist3 (ex_slow hist3) 3 (ex_env hist3 o) [] ∅ two_commits.
Proof. apply two_ready; [by left|lk|by apply const_no_nl|meta_ok|apply short_check; lk]. Qed.
Lemma hist2_ready o : any_orders o -> run_ready hist2 (ex_slow hist2) 2 (ex_env hist2 o) [] ∅ two_commits.
Proof. apply two_ready; [by right|lk|by apply const_no_nl|meta_ok|apply short_check; lk]. Qed.
(** (The trees are the same, so [git blame] is: [ex_slow hist3] is [ex_slow hist2].) *)
Example C58_hypotheses_hold :
  run_ready hist3 (ex_slow hist3) 3 (ex_env hist3 id_orders) [] ∅ two_commits /\
  run_ready hist2 (ex_slow hist3) 2 (ex_env hist2 rev_orders) [] ∅ two_commits /\ same_history hist3 hist2 /\
  short_lines (log_lines (git_log hist3 two_commits)) /\ short_lines (log_lines (git_log hist2 two_commits)) /\
  render_log (git_log hist3 two_commits) <> render_log (git_log hist2 two_commits).
Proof.
  split; [apply hist3_ready, id_orders_any|]. split; [exact (hist2_ready _ rev_orders_any)|]. split; [apply two_same; tauto|].
  split; [apply short_check; lk|]. split; [apply short_check; lk|]. intros E. vm_compute in E. discriminate E.
Qed.
(** Only the context differs. *)
Definition hist2c : history := two_hist 5 (B "1111111..2222222 100644") [] meta1.
Lemma hist2c_ready o : any_orders o -> run_ready hist2c (ex_slow hist2c) 2 (ex_env hist2c o) [] ∅ two_commits.
Proof. apply two_ready; [by right|lk|by apply const_no_nl|meta_ok|apply short_check; lk]. Qed.
Example C57_hypotheses_hold :
  run_ready hist3 (ex_slow hist3) 3 (ex_env hist3 id_orders) [] ∅ two_commits /\
  run_ready hist2c (ex_slow hist3) 2 (ex_env hist2c rev_orders) [] ∅ two_commits /\ same_history hist3 hist2c /\ hi_meta hist3 = hi_meta hist2c /\
  short_lines (log_lines (git_log hist3 two_commits)) /\ short_lines (log_lines (git_log hist2c two_commits)) /\
  render_log (git_log hist3 two_commits) <> render_log (git_log hist2c two_commits).
Proof.
  split; [apply hist3_ready, id_orders_any|]. split; [exact (hist2c_ready _ rev_orders_any)|]. split; [apply two_same; tauto|]. split; [reflexivity|].
  split; [apply short_check; lk|]. split; [apply short_check; lk|]. intros E. vm_compute in E. discriminate E.
Qed.
(** The one change, with three and with two lines of context: the tail after the last hunk is empty, the scripts are the same. *)
Example C57_same_blame_hypotheses_hold :
  script [ch_hunk 4 []] [] = script [ch_hunk 5 []] [] /\ has_context 3 0 true [ch_hunk 4 []] /\ has_context 2 0 true [ch_hunk 5 []] /\
  length (b_lines (Blame a1 (map (fun t => Line t a1) old_lines) false)) = length (old_text (script [ch_hunk 4 []] [])).
Proof.
  split; [reflexivity|]. split; [|split; [|reflexivity]].
  - split; [by left|]. split; [|exact I]. right. exists [B "5"; B "6"; B "7"]. eexists. split; reflexivity.
  - split; [by left|]. split; [|exact I]. right. exists [B "6"; B "7"]. eexists. split; reflexivity.
Qed.
(** A call on the five commits of [ex_hist], and the same history with another author and message. *)
Definition ex_hist' : history := History (hi_parents ex_hist) (hi_tree ex_hist) (hi_diff ex_hist) (fun _ => meta2).
Lemma ex_same : same_history ex_hist ex_hist'.
Proof.
  split; [reflexivity|]. split; [reflexivity|]. intros c p. change (hi_diff ex_hist' c p) with (hi_diff ex_hist c p).
  generalize (hi_diff ex_hist c p) as l. induction l as [|q l IH]; constructor; [|exact IH]. split; [done|]. split; [done|].
  destruct (fp_body q) as [| |hs]; [exact I..|]. exists [], []. reflexivity.
Qed.
Lemma ex_ready' o : any_orders o -> run_ready ex_hist' (ex_slow ex_hist) 3 (ex_env ex_hist o) [] ∅ ex_commits.
Proof.
  intros Ho. destruct (ex_ready o Ho) as [HV Hk HS HA He Hpf Hc Hb]. split; [|exact Hk|exact HS|exact HA|exact He|exact Hpf|exact Hc|intros p Hp; by apply elem_of_nil in Hp].
  split; [exact (proj1 HV)|]. intros c Hc'. destruct (proj2 HV c Hc') as (A1 & A2 & A3 & _ & A5). split; [exact A1|]. split; [exact A2|]. split; [exact A3|]. split; [|exact A5].
  split; [apply not_elem_of_nil|]. split; [by apply const_no_nl|]. repeat (apply Forall_cons_2; [by apply const_no_nl|]). apply Forall_nil_2.
Qed.
Example C58_same_records_hypotheses_hold :
  run_ready ex_hist (ex_slow ex_hist) 3 (ex_env ex_hist rev_orders) [] ∅ ex_commits /\
  run_ready ex_hist' (ex_slow ex_hist) 3 (ex_env ex_hist id_orders) [] ∅ ex_commits /\ same_history ex_hist ex_hist' /\
  short_lines (log_lines (git_log ex_hist ex_commits)) /\ short_lines (log_lines (git_log ex_hist' ex_commits)) /\
  render_log (git_log ex_hist ex_commits) <> render_log (git_log ex_hist' ex_commits) /\
  let act1 := act 0%N pl_cl ex_count pl_meta pl_orders ∅ no_skip (ex_env ex_hist rev_orders) (POpts [] false false false []) (FS None None)
    (render_log (git_log ex_hist ex_commits)) None None None in
  exists c w, rtc (step act1) code_call c /\ final act1 c /\ returned c = Some (Ret tt, w) /\ length (received c) = 5.
Proof.
  split; [apply ex_ready, rev_orders_any|]. split; [apply ex_ready', id_orders_any|]. split; [exact ex_same|]. split; [exact ex_log_short|].
  split; [apply short_check; lk|]. split; [intros E; vm_compute in E; discriminate E|]. destruct C73_hypotheses_hold as (_ & _ & _ & _ & _ & Hc). exact Hc.
Qed.
