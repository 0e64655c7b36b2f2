(** * C58: settings of git that change results without any message, and settings that stop a run *)
From Verif.Model Require Import Base GoStrings IncBlame LogParser ParentsGraph Process.
From Verif.Spec Require Import Text UnifiedDiff Attribution GitLog CommitGraph History Processing.
From Verif.Proofs Require Import TextLemmas LogParse GraphExamples ParentsGraphProofs BlameOf ProcessExamples.
From Verif.Props Require Import ProcessProps PresentationProps.
From Coq Require Import Lia.

(** The lines reported for file [f] by the [i]-th result of a run. *)
Definition reported (x : pst * outcome unit) (i : nat) (f : bytes) : option (list line) :=
  match s_out x.1 !! i with Some r => b_lines <$> r_files r !! f | None => None end.

(** ** diff.renames=false, for every history

    [H], [H']: one history of text files (the same commits, parents and trees), printed with renames and without them.  Commit [c], with one parent,
    renames [f] to [g] without changing it.  Both runs end without an error; in the one the lines of [g] belong to ancestors of [c], in the other
    all of them to [c]. *)
Lemma written_result H slow c p cs rs i q g : Forall2 (commit_right H slow) cs rs -> cs !! i = Some c -> hparents H c = [p] -> q ∈ hi_diff H c p -> writes q g ->
  exists r b, rs !! i = Some r /\ r_commit r = c /\ r_files r !! g = Some b /\ blame_of H slow c g b.
Proof.
  intros HF Hi Hp Hq Hw. destruct (Forall2_lookup_l _ _ _ _ _ HF Hi) as (r & Hr & HR). unfold commit_right in HR. rewrite decide_False in HR by (rewrite Hp; cbn; lia).
  unfold patches_of in HR. rewrite Hp in HR. destruct HR as (Hc & Ht & Hb & _).
  assert (is_Some (r_files r !! g)) as [b Eb] by (apply Ht; exists q; split; [exact Hq|by left]).
  exists r, b. split; [exact Hr|]. split; [exact Hc|]. split; [exact Eb|]. apply (Hb g b Eb). exists q. by split.
Qed.
Lemma only_writer k t t' ps q q' g : describes k t t' ps -> q ∈ ps -> q' ∈ ps -> writes q g -> writes q' g -> q = q'.
Proof.
  intros (_ & _ & H & _) [i Hi]%elem_of_list_lookup [j Hj]%elem_of_list_lookup Hw Hw'. assert (i = j) as -> by (by eapply H). rewrite Hi in Hj. by injection Hj.
Qed.
Lemma created_lines c es ls : attributed cr_trimmed c es [] ls -> forall l, l ∈ ls -> l_commit l = c.
Proof. intros Ha l Hl. destruct (attributed_in cr_trimmed c es [] ls l Ha Hl) as [H|H]; [by apply elem_of_nil in H|exact H]. Qed.
Lemma kept_lines c t old ls : attributed cr_trimmed c (map Keep t) old ls -> ls = old.
Proof. revert old ls. induction t as [|x t IH]; intros old ls H; inversion H; subst; [done|]. f_equal. by apply IH. Qed.

Theorem C58_every_rename_refuted k k' H H' slow e e' before r0 cs i c p f g modes mode sim idx q' en :
  run_ready H slow k e before r0 cs -> run_ready H' slow k' e' before r0 cs ->
  hi_parents H = hi_parents H' -> hi_tree H = hi_tree H' ->
  (forall c f e, hi_tree H c !! f = Some e -> exists ls, en_content e = CText ls) ->
  short_lines (log_lines (git_log H cs)) -> short_lines (log_lines (git_log H' cs)) ->
  cs !! i = Some c -> hparents H c = [p] -> hi_tree H c !! g = Some en -> content_lines (en_content en) <> [] ->
  FPatch (FRename f g sim modes) idx FBNone ∈ hi_diff H c p ->
  q' ∈ hi_diff H' c p -> fp_kind q' = FCreate g mode ->
  exists s s' r r' b b',
    process_log e (pst_init r0) (log_run (render_log (git_log H cs))).1 = (s, Ret tt) /\
    process_log e' (pst_init r0) (log_run (render_log (git_log H' cs))).1 = (s', Ret tt) /\
    s_out s !! i = Some r /\ s_out s' !! i = Some r' /\ r_commit r = c /\ r_commit r' = c /\
    r_files r !! g = Some b /\ r_files r' !! g = Some b' /\
    (forall l, l ∈ b_lines b -> ancestor (hi_parents H) c (l_commit l)) /\ (forall l, l ∈ b_lines b' -> l_commit l = c) /\
    b_lines b <> b_lines b'.
Proof.
  intros HR HR' EP ET HT Hs Hs' Hi Hp Hen Hne Hq Hq' Hk'.
  destruct (C27_results_right_partial k H slow e before r0 cs HR Hs) as (s & Es & HF). destruct (C27_results_right_partial k' H' slow e' before r0 cs HR' Hs') as (s' & Es' & HF').
  assert (Hp' : hparents H' c = [p]) by (unfold hparents in *; by rewrite <-EP).
  assert (Hc : is_Some (hi_parents H !! c)) by (apply (rr_commits _ _ _ _ _ _ _ HR); by eapply elem_of_list_lookup_2).
  assert (Hc' : is_Some (hi_parents H' !! c)) by (by rewrite <-EP).
  pose proof (rr_valid _ _ _ _ _ _ _ HR) as HV. pose proof (rr_valid _ _ _ _ _ _ _ HR') as HV'.
  assert (HD : describes k (hi_tree H p) (hi_tree H c) (hi_diff H c p)) by (apply (proj2 HV c Hc); rewrite Hp; by left).
  assert (HD' : describes k' (hi_tree H' p) (hi_tree H' c) (hi_diff H' c p)) by (apply (proj2 HV' c Hc'); rewrite Hp'; by left).
  set (q := FPatch _ _ _) in Hq.
  assert (HB := proj1 HD). rewrite Forall_forall in HB. destruct (HB _ Hq) as ([Hwk _] & _ & Hbt). cbn [fp_kind q] in Hbt, Hwk. destruct Hbt as (ef & eg & Hf & _ & _ & Hg & _).
  assert (Hfn : f <> []) by (destruct Hwk as ((? & _) & _); assumption). assert (Hgn : g <> []) by (destruct Hwk as (_ & (? & _) & _); assumption).
  assert (Hw : writes q g) by (split; [exact Hgn|reflexivity]). assert (Hw' : writes q' g) by (split; [exact Hgn|by rewrite Hk']).
  destruct (written_result H slow c p cs (s_out s) i q g HF Hi Hp Hq Hw) as (r & b & Er & Erc & Eb & Hb).
  destruct (written_result H' slow c p cs (s_out s') i q' g HF' Hi Hp' Hq' Hw') as (r' & b' & Er' & Erc' & Eb' & Hb').
  assert (Hlen : length (hparents H c) <= 1) by (rewrite Hp; cbn; lia). assert (Hlen' : length (hparents H' c) <= 1) by (rewrite Hp'; cbn; lia).
  assert (HT' : forall c f e, hi_tree H' c !! f = Some e -> exists ls, en_content e = CText ls) by (rewrite <-ET; exact HT).
  assert (Hpk : is_Some (hi_parents H !! p)) by (apply (proj1 HV c p); unfold parent; fold (hparents H c); rewrite Hp; by left).
  assert (Htxt : b_lines b <> []).
  { intros E0. destruct (C27_blame_is_the_file k H slow c g b en HV (rr_slow _ _ _ _ _ _ _ HR) Hc Hb Hen) as [H1 _].
    specialize (H1 (C27_text_is_never_binary k H slow c g b HV (rr_slow _ _ _ _ _ _ _ HR) HT Hc Hb)). rewrite E0 in H1. inversion H1 as [E1|]. by apply Hne. }
  assert (Hold : forall l, l ∈ b_lines b -> ancestor (hi_parents H) c (l_commit l)).
  { assert (Hpar : parent (hi_parents H) c p) by (unfold parent; fold (hparents H c); rewrite Hp; by left).
    assert (Hfrom : forall b0, blame_of H slow p f b0 -> forall l, l ∈ b_lines b0 -> ancestor (hi_parents H) c (l_commit l)).
    { intros b0 Hb0 l Hl. eapply relations.tc_rtc_r; [apply relations.tc_once; exact Hpar|]. by apply (C27_blame_is_the_file k H slow p f b0 ef HV (rr_slow _ _ _ _ _ _ _ HR) Hpk Hb0 Hf). }
    assert (Huniq : forall p0 q0, hparents H c = [p0] -> q0 ∈ hi_diff H c p0 -> writes q0 g -> p0 = p /\ q0 = q).
    { intros p0 q0 Hp0 Hq0 Hw0. rewrite Hp in Hp0. injection Hp0 as <-. split; [reflexivity|]. exact (only_writer _ _ _ _ _ _ _ HD Hq0 Hq Hw0 Hw). }
    inversion Hb as [c0 p0 f0 b0 Hp0 _ Hno _|c0 f0 q0 hs ls _ Hq0 Hw0 Hn0 _ _|c0 p0 f0 q0 hs tail b0 ls Hp0 Hq0 Hw0 _ Hbody Hb0 _ _ Hatt|c0 f0 q0 _ Hq0 Hw0 Hbody
      |c0 p0 f0 q0 b0 Hp0 Hq0 Hw0 _ _ _ Hb0 Hbin|c0 p0 f0 q0 hs b0 b1 Hp0 Hq0 Hw0 _ _ Hb0 Hbin _|c0 p0 f0 b0 Hm|c0 f0 e0 txt mps ls Hm|c0 f0 p0 q0 Hm|c0 f0 p0 q0 b0 Hm]; subst.
    - rewrite Hp in Hp0. injection Hp0 as <-. destruct (Hno q Hq Hw).
    - exfalso. unfold patches_of in Hq0. rewrite Hp in Hq0. destruct (Huniq p q0 Hp Hq0 Hw0) as [_ ->]. by apply Hfn.
    - destruct (Huniq p0 q0 Hp0 Hq0 Hw0) as [-> ->]. destruct Hbody as [Hbody|[_ ->]]; [discriminate Hbody|]. cbn [script concat map app] in Hatt. apply kept_lines in Hatt as ->. exact (Hfrom b0 Hb0).
    - exfalso. unfold patches_of in Hq0. rewrite Hp in Hq0. destruct (Huniq p q0 Hp Hq0 Hw0) as [_ ->]. discriminate Hbody.
    - destruct (Huniq p0 q0 Hp0 Hq0 Hw0) as [-> ->]. exact (Hfrom b Hb0).
    - exfalso. destruct (Huniq p0 q0 Hp0 Hq0 Hw0) as [-> ->]. cbn [q fp_kind name_before kind_old] in Hb0. rewrite (C27_text_is_never_binary k H slow p f b0 HV (rr_slow _ _ _ _ _ _ _ HR) HT Hpk Hb0) in Hbin. discriminate Hbin.
    - lia.
    - lia.
    - lia.
    - lia. }
  assert (Hnew : forall l, l ∈ b_lines b' -> l_commit l = c).
  { assert (Huniq : forall p0 q0, hparents H' c = [p0] -> q0 ∈ hi_diff H' c p0 -> writes q0 g -> p0 = p /\ q0 = q').
    { intros p0 q0 Hp0 Hq0 Hw0. rewrite Hp' in Hp0. injection Hp0 as <-. split; [reflexivity|]. exact (only_writer _ _ _ _ _ _ _ HD' Hq0 Hq' Hw0 Hw'). }
    assert (Hbef : name_before (fp_kind q') = []) by (by rewrite Hk').
    inversion Hb' as [c0 p0 f0 b0 Hp0 _ Hno _|c0 f0 q0 hs ls _ Hq0 Hw0 Hn0 _ Hatt|c0 p0 f0 q0 hs tail b0 ls Hp0 Hq0 Hw0 Hn0 Hbody Hb0 _ _ Hatt|c0 f0 q0 _ Hq0 Hw0 Hbody
      |c0 p0 f0 q0 b0 Hp0 Hq0 Hw0 Hn0 _ _ Hb0 Hbin|c0 p0 f0 q0 hs b0 b1 Hp0 Hq0 Hw0 Hn0 _ Hb0 Hbin _|c0 p0 f0 b0 Hm|c0 f0 e0 txt mps ls Hm|c0 f0 p0 q0 Hm|c0 f0 p0 q0 b0 Hm]; subst.
    - rewrite Hp' in Hp0. injection Hp0 as <-. destruct (Hno q' Hq' Hw').
    - exact (created_lines _ _ _ Hatt).
    - destruct (Huniq p0 q0 Hp0 Hq0 Hw0) as [-> ->]. by destruct Hn0.
    - intros l Hl. by apply elem_of_nil in Hl.
    - destruct (Huniq p0 q0 Hp0 Hq0 Hw0) as [-> ->]. by destruct Hn0.
    - destruct (Huniq p0 q0 Hp0 Hq0 Hw0) as [-> ->]. by destruct Hn0.
    - lia.
    - lia.
    - lia.
    - lia. }
  exists s, s', r, r', b, b'. split; [exact Es|]. split; [exact Es'|]. split; [exact Er|]. split; [exact Er'|]. split; [exact Erc|]. split; [exact Erc'|].
  split; [exact Eb|]. split; [exact Eb'|]. split; [exact Hold|]. split; [exact Hnew|]. intros E0. destruct (b_lines b) as [|l ls] eqn:El; [by apply Htxt|].
  assert (Ha : ancestor (hi_parents H) c (l_commit l)) by (apply Hold; by left). rewrite (Hnew l) in Ha by (rewrite <-E0; by left).
  by apply (rr_acyclic _ _ _ _ _ _ _ HR c).
Qed.
Print Assumptions C58_every_rename_refuted.

(** ** diff.renames=false

    a1 creates f, b2 renames it to g.  With git's default the patch of b2 is a rename, with diff.renames=false a deletion and a creation. *)
Definition ren_tree : bytes -> tree := pick ∅ [(a1, {[ f_ := txt [x_; y_] ]}); (b2, {[ g_ := txt [x_; y_] ]})].
Definition ren_patch : fpatch := FPatch (FRename f_ g_ (B "100%") None) None FBNone.
Definition del_patch : fpatch := FPatch (FDelete f_ (B "100644")) (Some (B "1111111..0000000")) (body [Del x_; Del y_]).
Definition add_patch : fpatch := creates g_ [Add x_; Add y_].
Definition ren_hist (ps : list fpatch) : history := History two_parents ren_tree
  (fun c p => pick [] [(a1, [creates f_ [Add x_; Add y_]]); (b2, ps)] c) (fun _ => meta1).
(** The log as git prints it with renames on, and off. *)
Definition log_on : bytes := render_log (git_log (ren_hist [ren_patch]) two_commits).
Definition log_off : bytes := render_log (git_log (ren_hist [del_patch; add_patch]) two_commits).
Definition run_text (text : bytes) : pst * outcome unit :=
  process_log (ex_env (ren_hist [ren_patch]) id_orders) (pst_init ∅) (log_run text).1.

Lemma ren_on_ok : describes 3 (ren_tree a1) (ren_tree b2) [ren_patch].
Proof.
  change (ren_tree a1) with ({[ f_ := txt [x_; y_] ]} : tree). change (ren_tree b2) with ({[ g_ := txt [x_; y_] ]} : tree).
  apply describes_distinct; [constructor; [|constructor]| |in_list].
  - split.
    + split; [split; [split; [done|lk]|split; [split; [done|lk]|split; [discriminate|split; [split; [discriminate|lk]|exact I]]]]|]. split; [exact I|exact I].
    + split; [unfold short_lines; repeat constructor|]. cbn. eexists _, _. split; [lk|]. split; [lk|]. split; [lk|]. split; [lk|]. reflexivity.
  - intros f Hd. kase f [f_; g_].
    + split; [intros H; vm_compute in H; by destruct H|]. intros _. exists ren_patch. split; [apply elem_of_list_here|done].
    + split; [intros _; exists ren_patch; split; [apply elem_of_list_here|split; [done|lk]]|intros H; vm_compute in H; discriminate H].
    + exfalso. apply Hd. rewrite !lookup_singleton_ne by congruence. reflexivity.
Qed.

Lemma ren_off_ok : describes 3 (ren_tree a1) (ren_tree b2) [del_patch; add_patch].
Proof.
  change (ren_tree a1) with ({[ f_ := txt [x_; y_] ]} : tree). change (ren_tree b2) with ({[ g_ := txt [x_; y_] ]} : tree).
  apply describes_distinct; [constructor; [|constructor; [do_creates|constructor]]| |in_list].
  - split.
    + split; [split; [split; [done|lk]|split; [done|lk]]|]. split; [lk|apply wf_text_body; [done|const_nl]].
    + split; [unfold short_lines; repeat constructor|]. cbn. eexists. split; [lk|]. split; [left; lk|]. split; [apply context_top|]. by exists [].
  - intros f Hd. kase f [f_; g_].
    + split; [intros H; vm_compute in H; by destruct H|]. intros _. exists del_patch. split; [apply elem_of_list_here|done].
    + split; [intros _; exists add_patch; split; [apply elem_of_list_further, elem_of_list_here|split; [done|lk]]|intros H; vm_compute in H; discriminate H].
    + exfalso. apply Hd. rewrite !lookup_singleton_ne by congruence. reflexivity.
Qed.
Lemma ren_first_ok : describes 3 ∅ (ren_tree a1) [creates f_ [Add x_; Add y_]].
Proof.
  change (ren_tree a1) with ({[ f_ := txt [x_; y_] ]} : tree).
  apply describes_distinct; [constructor; [do_creates|constructor]| |in_list].
  intros f Hd. kase f [f_]; [covers (creates f_ [Add x_; Add y_])|].
  exfalso. apply Hd. rewrite lookup_empty, lookup_singleton_ne by congruence. reflexivity.
Qed.
Lemma ren_ready ps o : describes 3 (ren_tree a1) (ren_tree b2) ps -> any_orders o ->
  run_ready (ren_hist ps) (ex_slow (ren_hist ps)) 3 (ex_env (ren_hist ps) o) [] ∅ two_commits.
Proof.
  intros Hps Ho. split.
  - split.
    + intros x y Hp. unfold parent, parents in Hp. change (hi_parents (ren_hist ps)) with two_parents in *.
      destruct (two_parents !! x) as [l|] eqn:E; [|by apply elem_of_nil in Hp].
      destruct (two_known x ltac:(by eexists)) as [->| ->]; vm_compute in E; injection E as <-;
        (repeat (apply elem_of_cons in Hp as [->|Hp]; [vm_compute; by eexists|]); by apply elem_of_nil in Hp).
    + intros c Hc. pose proof ids_ok as Hids. rewrite Forall_forall in Hids.
      assert (Hm : wf_meta meta1) by meta_ok.
      destruct (two_known c Hc) as [->| ->].
      * split; [apply Hids; in_list|]. split; [constructor|]. split; [constructor|]. split; [exact Hm|]. split; [intros _; exact ren_first_ok|].
        intros p Hp. by apply elem_of_nil in Hp.
      * split; [apply Hids; in_list|]. split; [constructor; [apply Hids; in_list|constructor]|]. split; [apply NoDup_singleton|]. split; [exact Hm|]. split; [discriminate|].
        intros p Hp. change (p ∈ [a1]) in Hp. apply elem_of_list_singleton in Hp as ->. exact Hps.
  - lia.
  - apply ex_slow_right.
  - apply (acyclic_check rank_of). change (hi_parents (ren_hist ps)) with two_parents. lk.
  - by apply ex_env_right.
  - split; [in_list|]. split; [intros p Hp; by apply elem_of_nil in Hp|]. split; [in_list|]. split; [|exact I].
    intros p Hp. change (p ∈ [a1]) in Hp. apply elem_of_list_singleton in Hp as ->. split; in_list.
  - intros c Hc. apply elem_of_cons in Hc as [->|Hc]; [|apply elem_of_list_singleton in Hc as ->]; (split; [vm_compute; by eexists|intros Hl; vm_compute in Hl; lia]).
  - intros p Hp. by apply elem_of_nil in Hp.
Qed.

(** Both logs are right for one and the same history of trees; both runs end without an error; the same file of the same commit has its lines from a1
    in the one and from b2 in the other. *)
Theorem C58_renames_refuted :
  (forall ps, In ps [[ren_patch]; [del_patch; add_patch]] -> run_ready (ren_hist ps) (ex_slow (ren_hist ps)) 3 (ex_env (ren_hist ps) id_orders) [] ∅ two_commits) /\
  (run_text log_on).2 = Ret tt /\ reported (run_text log_on) 1 g_ = Some [Line x_ a1; Line y_ a1] /\
  (run_text log_off).2 = Ret tt /\ reported (run_text log_off) 1 g_ = Some [Line x_ b2; Line y_ b2].
Proof.
  split; [|split; [lk|split; [lk|split; [lk|lk]]]].
  intros ps [<-|[<-|[]]]; [apply ren_ready; [exact ren_on_ok|apply id_orders_any]|apply ren_ready; [exact ren_off_ok|apply id_orders_any]].
Qed.
Print Assumptions C58_renames_refuted.
Lemma ren_short ls : forallb (fun l : bytes => (N.of_nat (length l) <? 100000000)%N) ls = true -> short_lines ls.
Proof.
  intros E. unfold short_lines. rewrite Forall_forall. intros l Hl. rewrite forallb_forall in E. specialize (E l (proj1 (elem_of_list_In _ _) Hl)). by apply N.ltb_lt.
Qed.
(** The concrete history meets the hypotheses of C58_every_rename_refuted. *)
Example C58_rename_hypotheses_hold :
  (forall c f e, hi_tree (ren_hist [ren_patch]) c !! f = Some e -> exists ls, en_content e = CText ls) /\
  short_lines (log_lines (git_log (ren_hist [ren_patch]) two_commits)) /\ short_lines (log_lines (git_log (ren_hist [del_patch; add_patch]) two_commits)) /\
  two_commits !! 1 = Some b2 /\ hparents (ren_hist [ren_patch]) b2 = [a1] /\ hi_tree (ren_hist [ren_patch]) b2 !! g_ = Some (txt [x_; y_]) /\
  ren_patch ∈ hi_diff (ren_hist [ren_patch]) b2 a1 /\ add_patch ∈ hi_diff (ren_hist [del_patch; add_patch]) b2 a1 /\ fp_kind add_patch = FCreate g_ (B "100644").
Proof.
  split.
  - intros c f e. change (hi_tree (ren_hist [ren_patch]) c) with (ren_tree c). unfold ren_tree, pick. destruct (list_find _ _) as [[i [x t]]|] eqn:E; [|intros H; by rewrite lookup_empty in H].
    apply list_find_Some in E as (Hi & _ & _). destruct i as [|[|i]]; [| |discriminate Hi]; injection Hi as <- <-; intros H; apply lookup_singleton_Some in H as [_ <-]; by eexists.
  - split; [apply ren_short; lk|]. split; [apply ren_short; lk|].
    split; [lk|]. split; [lk|]. split; [lk|]. split; [apply elem_of_list_here|]. split; [apply elem_of_list_further, elem_of_list_here|]. reflexivity.
Qed.

(** ** diff.renames=copies

    a1 creates f; b2 appends a line to f and adds g, a copy of the old f.  By default g is a new file; with diff.renames=copies it is printed as a copy. *)
Definition two_lines (rest : list bytes) : bytes := unlines (
  [B "commit a1"; B "Author: A <a@x>"; []; B "    title"; [];
   B "diff --git a/f b/f"; B "new file mode 100644"; B "index 0000000..1111111"; B "--- /dev/null"; B "+++ b/f"; B "@@ -0,0 +1,2 @@"; B "+x"; B "+y"; [];
   B "commit b2"; B "Author: A <a@x>"; []; B "    title"; [];
   B "diff --git a/f b/f"; B "index 1111111..2222222 100644"; B "--- a/f"; B "+++ b/f"; B "@@ -1,2 +1,3 @@"; B " x"; B " y"; B "+z"] ++ rest).
Definition log_copies : bytes := two_lines [B "diff --git a/f b/g"; B "similarity index 100%"; B "copy from f"; B "copy to g"].
Definition log_no_copies : bytes := two_lines [B "diff --git a/g b/g"; B "new file mode 100644"; B "index 0000000..1111111"; B "--- /dev/null"; B "+++ b/g"; B "@@ -0,0 +1,2 @@"; B "+x"; B "+y"].
Theorem C58_copies_refuted :
  (run_text log_no_copies).2 = Ret tt /\ reported (run_text log_no_copies) 1 g_ = Some [Line x_ b2; Line y_ b2] /\
  (run_text log_copies).2 = Ret tt /\ reported (run_text log_copies) 1 g_ = Some [Line x_ a1; Line y_ a1].
Proof. split; [lk|split; [lk|split; [lk|lk]]]. Qed.
Print Assumptions C58_copies_refuted.

(** ** log.showRoot=false

    git prints the first commit without its patch.  The next commit, which changes a file of the first, ends the run with a panic. *)
Theorem C58_no_root_patch_refuted :
  exists m, (run_text (unlines [B "commit a1"; B "Author: A <a@x>"; []; B "    title"; []; B "commit b2"; B "Author: A <a@x>"; []; B "    title"; [];
    B "diff --git a/f b/f"; B "index 1111111..2222222 100644"; B "--- a/f"; B "+++ b/f"; B "@@ -1,2 +1,3 @@"; B " x"; B " y"; B "+z"])).2 = Panic m.
Proof. eexists. lk. Qed.
Print Assumptions C58_no_root_patch_refuted.

(** ** Settings that add to the lines about a commit: the run ends with a panic at the first such commit, whatever follows *)
Lemma panic_at pre l m rest s : Forall no_nl (pre ++ l :: rest) -> short_lines (pre ++ l :: rest) ->
  lp_lines lp_init (map drop_cr pre) = (s, Ret tt) -> lp_line s (drop_cr l) = Panic m -> log_run (unlines (pre ++ l :: rest)) = (lp_out s, Panic m).
Proof.
  intros Hn Hs Hp Hl. unfold log_run. rewrite scan_unlines by assumption. rewrite map_app. cbn [map].
  assert (lp_lines lp_init (map drop_cr pre ++ drop_cr l :: map drop_cr rest) = (s, Panic m)) as ->; [|reflexivity].
  revert Hp. generalize lp_init as s0. induction (map drop_cr pre) as [|x xs IH]; intros s0 Hp; cbn [lp_lines app] in *.
  - injection Hp as ->. by rewrite Hl.
  - destruct (lp_line s0 x); [by apply IH|discriminate Hp|discriminate Hp].
Qed.
Definition ESC : ascii := ascii_of_nat 27.
(** color.ui=always (or color.diff=always): the first line of the log is coloured. *)
Theorem C58_color_refuted h rest :
  let first := (ESC :: B "[33mcommit ") ++ h ++ (ESC :: B "[m") in
  Forall no_nl (first :: rest) -> short_lines (first :: rest) -> exists m, log_run (unlines (first :: rest)) = ([], Panic m).
Proof.
  intros first Hn Hs. eexists. eapply (panic_at [] first _ rest lp_init); [exact Hn|exact Hs|reflexivity|].
  unfold first. change (ESC :: B "[m") with ((ESC :: B "[") ++ B "m"). rewrite !app_assoc, drop_cr_app by done. reflexivity.
Qed.
Print Assumptions C58_color_refuted.
(** log.showSignature=true: what gpg says about a signed commit comes between its id and its author. *)
Theorem C58_signature_refuted h says author rest :
  let ls := (B "commit " ++ h) :: (B "gpg: " ++ says) :: (B "Author: " ++ author) :: rest in
  commit_id h -> Forall no_nl ls -> short_lines ls -> exists m, log_run (unlines ls) = ([], Panic m).
Proof.
  intros ls [Hh0 Hh] Hn Hs. eexists.
  assert (E1 : drop_cr (B "commit " ++ h) = B "commit " ++ h).
  { rewrite drop_cr_app by exact Hh0. f_equal. apply drop_cr_no_cr. intros x -> . apply (hex_not_elem CR) in Hh; [|reflexivity]. apply Hh, elem_of_app. right. by left. }
  eapply (panic_at [B "commit " ++ h; B "gpg: " ++ says] (B "Author: " ++ author) _ rest (LParser [] (LCommit h [] []) LMsg [])); [exact Hn|exact Hs| |].
  - cbn [map]. rewrite E1. change (B "gpg: " ++ says) with (B "gpg:" ++ (SP :: says)). rewrite drop_cr_app by done. cbn [lp_lines].
    unfold lp_line at 1. cbn [lp_init lp_state]. unfold lp_commit_line. rewrite has_prefix_app. cbn [negb]. rewrite drop_app_len.
    rewrite cut_char_none by by apply hex_not_elem. reflexivity.
  - change (B "Author: " ++ author) with (B "Author:" ++ (SP :: author)). rewrite drop_cr_app by done. reflexivity.
Qed.
Print Assumptions C58_signature_refuted.
Example C58_lines_can_occur :
  (let ls := [B "commit a1"; B "gpg: " ++ B "Signature made Mon 01 Jan 2024"; B "Author: " ++ B "A <a@x>"; []; B "    title"] in Forall no_nl ls /\ short_lines ls) /\
  (let ls := [(ESC :: B "[33mcommit ") ++ B "a1" ++ (ESC :: B "[m"); B "Author: A <a@x>"] in Forall no_nl ls /\ short_lines ls).
Proof.
  split; (split; [repeat (apply Forall_cons_2; [by apply const_no_nl|]); apply Forall_nil_2|apply short_check; lk]).
Qed.
