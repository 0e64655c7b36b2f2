(** * C77-C79: a call of Code, from the answers of git *)
From Verif.Model Require Import Base GoStrings IncBlame LogParser ParentsGraph Process Msgp Checkpoint CheckpointFS CommitMeta FileInfo CodeInfo Net Pipeline GitBlame LogArgs Api.
From Verif.Spec Require Import Text UnifiedDiff Attribution GitLog CommitGraph History Processing Records MetaLog EndToEnd Delivery Selection Porcelain GitAnswers Continuing.
From Verif.Proofs Require Import TextLemmas GraphExamples MetaNames MetaParse ParentsGraphProofs SelectionProofs ProcessExamples CheckpointExamples RecordProofs RecordMore EndToEndProofs EndToEndRun PipelineProofs PipelineMore ApiProofs.
From Verif.Props Require Import MetaProps ProcessProps RecordProps PipelineProps GraphProps GitBlameProps EndToEndProps SelectionProps.
From Coq Require Import Lia.

(** ** C77: Code on a repository

    For every repository, every git that answers as documented, every order of maps and every schedule: the call neither crashes nor waits for
    ever; the caller receives, for each commit of HEAD's history (or of all refs, with AllBranches) exactly once and parents first, exactly the
    right records; then the channel is closed and the call returns.  What is written as checkpoint is right, and has the parents of the last commit (for C82).

    Partial: the restrictions of [usable] (as in C60).  For a call that resumes a checkpoint see C82. *)
Theorem C77_code_call_partial {T L} (zt : T) parse_date (cl : classifiers L) count orders graph_order merge_orders skip disk write_err git tmp repo_dir o k R H about f0 f1 :
  usable k parse_date R H about -> answers R H about git (if ro_all o then [B "--all"] else []) (if ro_all o then [B "--all"] else []) -> ro_from o = [] -> tmp 0 = Ret f0 -> tmp 1 = Ret f1 ->
  (forall n, any_perm (orders n)) -> (forall g, graph_order g ≡ₚ map_to_list g) -> (forall c, any_orders (merge_orders c)) -> detector_works cl ->
  exists s, code_setup zt parse_date graph_order git tmp repo_dir o = Ret s /\
  let act := api_act zt cl count orders merge_orders skip disk write_err git o s in
  exists cs xs w, lists_exactly cs (selected R (ro_all o)) /\ children_last (g_parents R) cs /\
    Forall2 (commit_records_right H (fallback git) (line_right (map about cs))) cs xs /\
    leaves_checkpoint H (fallback git) ∅ cs w /\ delivers act write_err (concat xs) w.
Proof.
  intros HU HA Hfrom Ht0 Ht1 Hord Hgo Hmo Hdet.
  assert (Er : patch_revs o = if ro_all o then [B "--all"] else []) by (unfold patch_revs, log_revs; cbn [process_opts po_from po_all]; rewrite Hfrom, decide_False by tauto; done).
  assert (Hsh : forall c, shows R (patch_revs o) c <-> selected R (ro_all o) c) by (intros c; by apply C68_full_run).
  destruct (call_delivers zt parse_date graph_order merge_orders git tmp repo_dir o k R H about HU ltac:(rewrite Er; exact HA) f0 f1 Ht0 Ht1 Hgo Hmo
    (fun c => proj1 (Hsh c)) ∅ ltac:(intros c fs Hc; by rewrite lookup_empty in Hc)) with (cl := cl) (count := count) (orders := orders) (skip := skip) (disk := disk) (write_err := write_err)
    as (s & Es & cs & xs & w & Hcs & Hrest); [|exact Hord|exact Hdet|unfold init_checkpoints; by rewrite decide_True by exact Hfrom|].
  { intros c q Hc Hp Hq. exfalso. apply Hq, Hsh. apply (selected_closed parse_date o k R H about HU c q); [by apply Hsh|exact Hp]. }
  rewrite decide_True in Hrest by done. exists s. split; [exact Es|]. cbv zeta. exists cs, xs, w. split; [|exact Hrest].
  destruct Hcs as [H1 H2]. split; [exact H1|]. intros x. by rewrite H2, Hsh.
Qed.
Print Assumptions C77_code_call_partial.

(** *** A repository that meets the hypotheses: a commit, one on top of it, and one on another branch; HEAD is the second one. *)
Definition id_of (n : ascii) : bytes := repeat n 40.
Definition qa := id_of "a". Definition qb := id_of "b". Definition qc := id_of "c".
Definition q_parents : graph := {[ qa := []; qb := [qa]; qc := [qa] ]}.
Definition q_repo : gitrepo := GitRepo q_parents [qb; qc] qb (fun _ => None).
Definition q_hist : history := History q_parents (pick ∅ [(qa, T_a); (qb, T_b); (qc, T_c)]) (fun c _ => pick [] [(qa, D_a); (qb, D_ab); (qc, D_ac)] c) ProcessExamples.ex_meta.
Definition q_about (c : bytes) : meta_entry N :=
  if decide (c = qa) then ee_entry qa [] (Changes [(ri, Plain "A" f_, MetaLog.Text 1 0)])
  else if decide (c = qb) then ee_entry qb [qa] (Changes [(ri, Plain "M" f_, MetaLog.Text 1 0)])
  else ee_entry qc [qa] (Changes [(ri, Plain "A" g_, MetaLog.Text 1 0)]).
Definition q_blame (c f : bytes) : list porcelain :=
  match hi_tree q_hist c !! f with Some e => map (fun t => Porcelain c (B " 1 1 1") [] t) (content_lines (en_content e)) | None => [] end.
Definition q_meta (cs : list bytes) : list bytes := concat (map (fun c => meta_lines (q_about c) ++ [[]]) cs).
(** git on this repository. *)
Definition q_git (_ : bound) (args : list bytes) : outcome bytes :=
  let all := bool_decide (B "--all" ∈ args) in
  let cs := if all then [qa; qc; qb] else [qa; qb] in
  match args with
  | a :: c :: rest =>
    if decide (a = B "rev-parse") then Ret (qb ++ [NL])
    else if decide (a = B "log") then Ret (render_graph (map (fun c => (c, parents (hi_parents q_hist) c)) cs))
    else if decide (a = B "blame") then match rest with [_; _; f] => Ret (render_porcelain (q_blame c f)) | _ => Err [] end
    else if decide (rest !! 3 = Some (B "-p")) then Ret (render_log (git_log q_hist cs))
    else Ret (unlines (q_meta cs))
  | _ => Err []
  end.

Lemma q_known c : is_Some (q_parents !! c) -> c = qa \/ c = qb \/ c = qc.
Proof.
  intros [v Hv]. unfold q_parents in Hv. destruct (decide (c = qa)) as [|N1]; [tauto|]. destruct (decide (c = qb)) as [|N2]; [tauto|]. destruct (decide (c = qc)) as [|N3]; [tauto|]. exfalso.
  rewrite !lookup_insert_ne, lookup_singleton_ne in Hv by congruence. done.
Qed.
Lemma q_ids : Forall commit_id [qa; qb; qc].
Proof. repeat (apply Forall_cons_2; [split; [discriminate|lk]|]). apply Forall_nil_2. Qed.
Lemma q_acyclic : acyclic (hi_parents q_hist).
Proof. apply (acyclic_check (fun c => if decide (c = qa) then 0 else 1)). lk. Qed.
Lemma q_valid : valid_history 3 q_hist.
Proof.
  split.
  - intros x y Hp. unfold parent, parents in Hp. change (hi_parents q_hist) with q_parents in *.
    destruct (q_parents !! x) as [l|] eqn:E; [|by apply elem_of_nil in Hp].
    destruct (q_known x ltac:(by eexists)) as [->|[->| ->]]; vm_compute in E; injection E as <-; [by apply elem_of_nil in Hp|..];
      (apply elem_of_list_singleton in Hp as ->; exists []; lk).
  - intros c Hc. pose proof q_ids as Hids. rewrite Forall_forall in Hids.
    assert (Hm : History.wf_meta (hi_meta q_hist c)) by (split_and!; [by apply const_no_nl|by apply const_no_nl|constructor; [by apply const_no_nl|constructor]]).
    destruct (q_known c Hc) as [->|[->| ->]].
    + split; [apply Hids; in_list|]. split; [constructor|]. split; [constructor|]. split; [exact Hm|]. split; [intros _; exact D_a_ok|].
      intros p Hp. by apply elem_of_nil in Hp.
    + split; [apply Hids; in_list|]. split; [apply Forall_singleton, Hids; in_list|]. split; [apply NoDup_singleton|]. split; [exact Hm|]. split; [discriminate|].
      intros p Hp. change (p ∈ [qa]) in Hp. apply elem_of_list_singleton in Hp as ->. exact D_ab_ok.
    + split; [apply Hids; in_list|]. split; [apply Forall_singleton, Hids; in_list|]. split; [apply NoDup_singleton|]. split; [exact Hm|]. split; [discriminate|].
      intros p Hp. change (p ∈ [qa]) in Hp. apply elem_of_list_singleton in Hp as ->. exact D_ac_ok.
Qed.
Local Ltac ni := (apply not_in_const; reflexivity).
Local Ltac flds := (split; [ni|split; [ni|split; [ni|ni]]]).
Local Ltac wrd := (split; [discriminate|flds]).
Local Ltac txt := (split; [ni|apply ntc_not; ni]).
Local Ltac pth := (split; [discriminate|split; [ni|split; [ni|split; [apply ntc_not; ni|intros ?; discriminate]]]]).
Local Ltac noarrow := (intros (? & ? & E); match type of E with ?x = _ => assert (">"%char ∉ x) as Hn by ni; rewrite E in Hn; apply Hn, elem_of_app; right; right; right; left end).
Local Ltac hdrs := (split; [wrd|split; [repeat (apply Forall_cons_2; [wrd|]); apply Forall_nil_2|split; [txt|split; [txt|split; [txt|split; [txt|split; [wrd|split; [apply TrimProofs.bare_solid; repeat (apply Forall_cons; split; [reflexivity|]); by apply Forall_nil|txt]]]]]]]]).
Local Ltac nodup := (apply (bool_decide_unpack _); vm_compute; exact I).
Local Ltac infos := (split; [flds|split; [flds|split; [flds|]]]).
Local Ltac letter := (apply (bool_decide_unpack _); vm_compute; exact I).
Local Ltac plain := (apply Forall_cons_2; [infos; split; [split; reflexivity|]; split; [letter|]; split; [pth|]; split; [noarrow|]; left; by left|apply Forall_nil_2]).
Lemma q_about_a : q_about qa = ee_entry qa [] (Changes [(ri, Plain "A" f_, MetaLog.Text 1 0)]).
Proof. unfold q_about. by rewrite decide_True. Qed.
Lemma q_about_b : q_about qb = ee_entry qb [qa] (Changes [(ri, Plain "M" f_, MetaLog.Text 1 0)]).
Proof. unfold q_about. by rewrite decide_False, decide_True. Qed.
Lemma q_about_c : q_about qc = ee_entry qc [qa] (Changes [(ri, Plain "A" g_, MetaLog.Text 1 0)]).
Proof. unfold q_about. by rewrite !decide_False. Qed.
Lemma q_about_ok c : is_Some (hi_parents q_hist !! c) -> me_sha (q_about c) = c /\ MetaLog.wf_meta any_date (q_about c) /\ entry_matches q_hist (q_about c).
Proof.
  assert (Hone : forall ps c p x, ps = [p] -> shown_as ps x.1.2 -> change_path x.1.2 = patch_path p -> c <= 1 -> c <= 1 /\ same_changes ps [x]).
  { intros ps c0 p x -> Hs Hp Hc. split; [exact Hc|]. split; [by apply Forall_singleton|]. intros q Hq. apply elem_of_list_singleton in Hq as ->.
    exists x. split; [by apply elem_of_list_singleton|exact Hp]. }
  intros Hc. destruct (q_known c Hc) as [->|[->| ->]]; [rewrite q_about_a|rewrite q_about_b|rewrite q_about_c]; (split; [reflexivity|]); split.
  - split; [hdrs|split; [reflexivity|split; [nodup|cbn [me_body ee_entry]]]]. plain.
  - apply (Hone _ _ (creates f_ [Add x_])); [lk| |reflexivity|vm_compute; lia]. right. left. split; [reflexivity|]. split; [eexists _, _; split; [apply elem_of_list_singleton; reflexivity|reflexivity]|].
    intros (p & m & Hp & Hk). apply elem_of_list_singleton in Hp as ->. discriminate Hk.
  - split; [hdrs|split; [reflexivity|split; [nodup|cbn [me_body ee_entry]]]]. plain.
  - apply (Hone _ _ (modifies f_ [Keep x_; Add y_])); [lk| |reflexivity|vm_compute; lia]. left. split; [reflexivity|]. eexists _, _; split; [apply elem_of_list_singleton; reflexivity|reflexivity].
  - split; [hdrs|split; [reflexivity|split; [nodup|cbn [me_body ee_entry]]]]. plain.
  - apply (Hone _ _ (creates g_ [Add z_])); [lk| |reflexivity|vm_compute; lia]. right. left. split; [reflexivity|]. split; [eexists _, _; split; [apply elem_of_list_singleton; reflexivity|reflexivity]|].
    intros (p & m & Hp & Hk). apply elem_of_list_singleton in Hp as ->. discriminate Hk.
Qed.
Lemma q_usable : usable 3 any_date q_repo q_hist q_about.
Proof.
  split.
  - reflexivity.
  - exact q_valid.
  - lia.
  - exact q_acyclic.
  - split; [exists [qa]; lk|lk].
  - intros x Hx. apply elem_of_cons in Hx as [->|Hx]; [exists [qa]; lk|]. apply elem_of_list_singleton in Hx as ->. exists [qa]; lk.
  - intros c Hc Hm. exfalso. destruct (q_known c Hc) as [->|[->| ->]]; vm_compute in Hm; lia.
  - exact q_about_ok.
  - intros c Hc. destruct (q_known c Hc) as [->|[->| ->]]; lk.
  - intros c Hc. unfold UnifiedDiff.short_lines. rewrite Forall_forall. intros l Hl.
    assert (forallb (fun l : bytes => (N.of_nat (length l) <? 100000000)%N) (log_lines (entries_of q_hist c)) = true) as E by (destruct (q_known c Hc) as [->|[->| ->]]; lk).
    rewrite forallb_forall in E. specialize (E l (proj1 (elem_of_list_In _ _) Hl)). by apply N.ltb_lt.
Qed.
Definition q_shown (all : bool) : list bytes := if all then [qa; qc; qb] else [qa; qb].
Lemma q_reaches x c : (x = qa \/ x = qb \/ x = qc) -> reaches q_parents x c -> c = x \/ c = qa.
Proof.
  assert (Ha : forall c, reaches q_parents qa c -> c = qa).
  { intros c0 Hr. destruct (rtc_inv _ _ Hr) as [<-|(y & Hy & _)]; [done|]. unfold parent in Hy. replace (parents q_parents qa) with (@nil bytes) in Hy by lk. by apply elem_of_nil in Hy. }
  intros Hx Hr. destruct (rtc_inv _ _ Hr) as [<-|(y & Hy & Hr')]; [by left|]. right. unfold parent in Hy.
  destruct Hx as [->|[->| ->]]; [|replace (parents q_parents qb) with [qa] in Hy by lk|replace (parents q_parents qc) with [qa] in Hy by lk];
    [replace (parents q_parents qa) with (@nil bytes) in Hy by lk; by apply elem_of_nil in Hy|apply elem_of_list_singleton in Hy as ->; by apply Ha..].
Qed.
Lemma q_selected all : lists_exactly (q_shown all) (selected q_repo all).
Proof.
  assert (Hb : reaches q_parents qb qa) by (apply rtc_once; unfold parent; replace (parents q_parents qb) with [qa] by lk; left).
  split; [destruct all; in_list|]. intros x. split.
  - intros Hx. destruct all; cbn [q_shown] in Hx; rewrite ?elem_of_cons, elem_of_nil in Hx.
    + destruct Hx as [->|[->|[->|[]]]]; [exists qb; split; [by left|exact Hb]|exists qc; split; [right; split; [done|right; left]|apply rtc_refl]|exists qb; split; [by left|apply rtc_refl]].
    + destruct Hx as [->|[->|[]]]; exists qb; (split; [by left|]); [exact Hb|apply rtc_refl].
  - intros (y & Hy & Hr). change (g_parents q_repo) with q_parents in Hr. cbn [q_repo g_head g_tips] in Hy.
    assert (Hyc : y = qb \/ all = true /\ y = qc).
    { destruct Hy as [->|[-> Hy]]; [by left|]. apply elem_of_cons in Hy as [->|Hy]; [by left|]. apply elem_of_list_singleton in Hy as ->. by right. }
    destruct (q_reaches y x) as [-> | ->]; [destruct Hyc as [->|[_ ->]]; tauto|exact Hr|destruct Hyc as [->|[-> ->]]|]; [destruct all; in_list|in_list|destruct all; in_list].
Qed.
Lemma q_shows (all : bool) : lists_exactly (q_shown all) (shows q_repo (if all then [B "--all"] else [])).
Proof.
  destruct (q_selected all) as [H1 H2]. split; [exact H1|]. intros x. rewrite H2.
  assert (E : patch_revs (ROpts [] false false all) = if all then [B "--all"] else []) by reflexivity. rewrite <- E. symmetry. by apply (C68_full_run q_repo (ROpts [] false false all)).
Qed.
Lemma q_last all : children_last (hi_parents q_hist) (q_shown all).
Proof.
  intros i j c p Hi Hj Hp. change (hi_parents q_hist) with q_parents in Hp. unfold parent in Hp.
  assert (Hc : c = qa \/ ((c = qb \/ c = qc) /\ i <> 0)).
  { destruct all; do 3 (destruct i as [|i]; [try (injection Hi as <-; tauto || (right; split; [tauto|lia]))|]); try discriminate Hi. }
  destruct Hc as [->|[Hc Hi0]]; [replace (parents q_parents qa) with (@nil bytes) in Hp by lk; by apply elem_of_nil in Hp|].
  assert (Hq : p = qa).
  { destruct Hc as [-> | ->]; [replace (parents q_parents qb) with [qa] in Hp by lk|replace (parents q_parents qc) with [qa] in Hp by lk]; by apply elem_of_list_singleton in Hp. }
  subst p. assert (j = 0); [|lia]. destruct all; do 3 (destruct j as [|j]; [try reflexivity; discriminate Hj|]); discriminate Hj.
Qed.
Lemma q_metadata all : meta_log (map q_about (q_shown all)) (q_meta (q_shown all)) /\ Forall (fun l => (N.of_nat (length l) < 65536)%N) (q_meta (q_shown all)).
Proof. split; [destruct all; lk|]. apply (bool_decide_unpack _). destruct all; vm_compute; exact I. Qed.
Lemma q_blames c f e : hi_tree q_hist c !! f = Some e -> Forall wf_porcelain (q_blame c f) /\ map po_text (q_blame c f) = content_lines (en_content e) /\
  forall p, p ∈ q_blame c f -> reaches (hi_parents q_hist) c (po_commit p).
Proof.
  intros He. assert (Hid : commit_id c).
  { destruct (decide (c ∈ [qa; qb; qc])) as [Hc|Hc]; [pose proof q_ids as Hids; rewrite Forall_forall in Hids; by apply Hids|]. exfalso.
    assert (En : hi_tree q_hist c = ∅); [|rewrite En in He; by rewrite lookup_empty in He].
    cbn [q_hist hi_tree]. unfold pick. cbn [list_find]. rewrite !decide_False by (cbn; intros <-; apply Hc; in_list). done. }
  assert (Ht : forall t, t ∈ content_lines (en_content e) -> NL ∉ t).
  { destruct (decide (c ∈ [qa; qb; qc])) as [Hc|Hc].
    - assert (Hall : forall t, t ∈ [T_a; T_b; T_c] -> forall f e, t !! f = Some e -> forallb (fun s => bool_decide (NL ∉ s)) (content_lines (en_content e)) = true).
      { intros t Ht f0 e0 He0. assert (Hx : forallb (fun x : bytes * entry => forallb (fun s => bool_decide (NL ∉ s)) (content_lines (en_content x.2))) (map_to_list t) = true).
        { rewrite ?elem_of_cons, elem_of_nil in Ht. destruct Ht as [->|[->|[->|[]]]]; lk. }
        rewrite forallb_forall in Hx. apply (Hx (f0, e0)). apply elem_of_list_In. by apply elem_of_map_to_list. }
      assert (Htc : hi_tree q_hist c ∈ [T_a; T_b; T_c]).
      { rewrite ?elem_of_cons, elem_of_nil in Hc. destruct Hc as [->|[->|[->|[]]]]; [left|right; left|right; right; left]. }
      specialize (Hall _ Htc f e He). rewrite forallb_forall in Hall. intros t Hin. apply elem_of_list_In in Hin. by apply Hall, bool_decide_eq_true in Hin.
    - exfalso. assert (En : hi_tree q_hist c = ∅); [|rewrite En in He; by rewrite lookup_empty in He].
      cbn [q_hist hi_tree]. unfold pick. cbn [list_find]. rewrite !decide_False by (cbn; intros <-; apply Hc; in_list). done. }
  unfold q_blame. rewrite He. revert Ht. generalize (content_lines (en_content e)). intros ts Ht. split; [|split].
  - apply Forall_forall. intros p Hp. apply elem_of_list_In, in_map_iff in Hp as (t & <- & Hin%elem_of_list_In).
    split; [exact Hid|]. split; [right; by eexists|]. split; [ni|]. split; [constructor|]. split; [constructor|]. by apply Ht.
  - rewrite map_map. apply map_id.
  - intros p Hp. apply elem_of_list_In, in_map_iff in Hp as (t & <- & _). apply rtc_refl.
Qed.
Lemma q_answers (all : bool) : answers q_repo q_hist q_about q_git (if all then [B "--all"] else []) (if all then [B "--all"] else []).
Proof.
  split.
  - intros x. reflexivity.
  - exists (q_shown all). split; [apply q_shows|]. intros x. destruct all; reflexivity.
  - intros f. exists (q_shown all). split; [apply q_shows|]. split; [apply q_last|]. intros x. destruct all.
    + unfold q_git. case_bool_decide as Hall; [reflexivity|]. exfalso. apply Hall. do 11 right. left.
    + unfold q_git. case_bool_decide as Hall; [|reflexivity]. exfalso.
      repeat (apply elem_of_cons in Hall as [Hall|Hall]; [discriminate Hall|]). by apply elem_of_nil in Hall.
  - intros f. exists (q_shown all), (q_meta (q_shown all)). split; [apply q_shows|]. split; [apply q_metadata|]. split; [apply q_metadata|]. intros x. destruct all.
    + unfold q_git. case_bool_decide as Hall; [reflexivity|]. exfalso. apply Hall. do 10 right. left.
    + unfold q_git. case_bool_decide as Hall; [|reflexivity]. exfalso.
      repeat (apply elem_of_cons in Hall as [Hall|Hall]; [discriminate Hall|]). by apply elem_of_nil in Hall.
  - intros c f e He. exists (q_blame c f). destruct (q_blames c f e He) as (H1 & H2 & H3). split; [exact H1|]. split; [exact H2|]. split; [exact H3|].
    intros x. reflexivity.
Qed.
Example C77_hypotheses_hold :
  usable 3 any_date q_repo q_hist q_about /\ (forall all : bool, answers q_repo q_hist q_about q_git (if all then [B "--all"] else []) (if all then [B "--all"] else [])) /\
  (forall all : bool, lists_exactly (if all then [qa; qc; qb] else [qa; qb]) (selected q_repo all)) /\
  (forall n, any_perm (pl_orders n)) /\ detector_works pl_cl.
Proof.
  split; [exact q_usable|]. split; [exact q_answers|]. split; [exact q_selected|]. split; [exact pl_orders_any|]. intros p c. exists None. reflexivity.
Qed.

(** ** C78: cancelling the context

    A git in which every command bound to the caller's context is killed: the context was cancelled before the call. *)
Definition cancelled (git : bound -> list bytes -> outcome bytes) (x : bound) (args : list bytes) : outcome bytes :=
  match x with CallersContext => Err (B "context canceled") | NoContext | Background => git x args end.

(** The full statement: on a usable repository a call with a cancelled context ends with an error. *)
Definition cancelling_ends_the_call : Prop :=
  forall k parse_date R H (about : bytes -> meta_entry N) git tmp repo_dir o f0 f1 s write_err c,
  usable k parse_date R H about -> answers R H about git (if ro_all o then [B "--all"] else []) (if ro_all o then [B "--all"] else []) -> ro_from o = [] -> tmp 0 = Ret f0 -> tmp 1 = Ret f1 ->
  code_setup 0%N parse_date map_to_list (cancelled git) tmp repo_dir o = Ret s ->
  let act := api_act 0%N pl_cl ex_count pl_orders (fun _ => id_orders) no_skip (FS None None) write_err (cancelled git) o s in
  rtc (step act) code_call c -> final act c -> exists e w, returned c = Some (Err e, w).

(** What holds instead: the context is not used, the call delivers everything as in C77. *)
Theorem C78_context_is_ignored {T L} (zt : T) parse_date (cl : classifiers L) count orders graph_order merge_orders skip disk write_err git tmp repo_dir o k R H about f0 f1 :
  usable k parse_date R H about -> answers R H about git (if ro_all o then [B "--all"] else []) (if ro_all o then [B "--all"] else []) -> ro_from o = [] -> tmp 0 = Ret f0 -> tmp 1 = Ret f1 ->
  (forall n, any_perm (orders n)) -> (forall g, graph_order g ≡ₚ map_to_list g) -> (forall c, any_orders (merge_orders c)) -> detector_works cl ->
  exists s, code_setup zt parse_date graph_order (cancelled git) tmp repo_dir o = Ret s /\
  let act := api_act zt cl count orders merge_orders skip disk write_err (cancelled git) o s in
  exists cs xs w, lists_exactly cs (selected R (ro_all o)) /\ children_last (g_parents R) cs /\
    Forall2 (commit_records_right H (fallback git) (line_right (map about cs))) cs xs /\
    leaves_checkpoint H (fallback git) ∅ cs w /\ delivers act write_err (concat xs) w.
Proof. exact (C77_code_call_partial zt parse_date cl count orders graph_order merge_orders skip disk write_err git tmp repo_dir o k R H about f0 f1). Qed.
Print Assumptions C78_context_is_ignored.

(** What git prints for the commands bound to the caller's context is not looked at, whatever git does. *)
Theorem C78_no_command_in_the_context {T L} (zt : T) parse_date (cl : classifiers L) count orders graph_order merge_orders skip disk write_err plain background ctx ctx' tmp repo_dir o :
  let git ctx x args := match x with NoContext => plain args | Background => background args | CallersContext => ctx args end in
  code_setup zt parse_date graph_order (git ctx) tmp repo_dir o = code_setup zt parse_date graph_order (git ctx') tmp repo_dir o /\
  forall s, api_act zt cl count orders merge_orders skip disk write_err (git ctx) o s = api_act zt cl count orders merge_orders skip disk write_err (git ctx') o s.
Proof. split; reflexivity. Qed.
Print Assumptions C78_no_command_in_the_context.

Theorem C78_cancelling_ends_the_call_refuted : ~ cancelling_ends_the_call.
Proof.
  intros Hall.
  assert (Ht : forall n, (fun n : nat => Ret (B "tmp")) n = Ret (B "tmp")) by done.
  assert (Hd : detector_works pl_cl) by (intros p c; exists None; reflexivity).
  destruct (C78_context_is_ignored 0%N any_date pl_cl ex_count pl_orders map_to_list (fun _ => id_orders) no_skip (FS None None) None q_git (fun _ => Ret (B "tmp")) [] (ROpts [] false false false)
    3 q_repo q_hist q_about _ _ q_usable (q_answers false) eq_refl (Ht 0) (Ht 1) pl_orders_any (fun g => reflexivity _) (fun _ => id_orders_any) Hd) as (s & Es & Hrest).
  cbv zeta in Hrest. set (act := api_act _ _ _ _ _ _ _ _ _ _ _) in Hrest. destruct Hrest as (cs & xs & w & _ & _ & _ & _ & [n Hn] & _ & Hrun).
  assert (Hlong : (forall c, rtc (step act) code_call c -> ~ final act c) -> forall m, ~ ~ exists c, nsteps (step act) m code_call c).
  { intros Hno m. induction m as [|m IH]; [intros Hx; apply Hx; exists code_call; constructor|]. intros Hx. apply IH. intros (c & Hc). apply (Hno c); [by eapply rtc_nsteps_2|].
    intros c' Hs. apply Hx. exists c'. by eapply nsteps_r. }
  apply (Hlong) with (S n); [|intros (c & Hc); specialize (Hn _ _ Hc); lia]. intros c Hc Hf.
  destruct (Hrun c Hc) as (_ & _ & _ & Hfin). destruct (Hfin Hf) as (_ & _ & _ & Er).
  destruct (Hall 3 any_date q_repo q_hist q_about q_git (fun _ => Ret (B "tmp")) [] (ROpts [] false false false) _ _ s None c q_usable (q_answers false) eq_refl (Ht 0) (Ht 1) Es Hc Hf) as (e & w' & Er').
  rewrite Er in Er'. unfold with_write in Er'. destruct w; discriminate Er'.
Qed.
Print Assumptions C78_cancelling_ends_the_call_refuted.

(** ** C79: temporary files

    The full statement: when a call returns, the files it made are gone. *)
Definition no_files_left : Prop :=
  forall parse_date graph_order (git : bound -> list bytes -> outcome bytes) tmp repo_dir o,
  temp_files 0%N parse_date graph_order git tmp repo_dir o = [].
(** What holds instead: a call on a usable repository leaves exactly two files; a call that fails while reading the graph leaves none. *)
Theorem C79_two_files_left {T} (zt : T) parse_date graph_order git tmp repo_dir o k R H about f0 f1 :
  usable k parse_date R H about -> answers R H about git (if ro_all o then [B "--all"] else []) (if ro_all o then [B "--all"] else []) -> ro_from o = [] -> tmp 0 = Ret f0 -> tmp 1 = Ret f1 ->
  temp_files zt parse_date graph_order git tmp repo_dir o = [f0; f1].
Proof.
  intros HU HA Hfrom Ht0 Ht1.
  assert (Er : patch_revs o = if ro_all o then [B "--all"] else []) by (unfold patch_revs, log_revs; cbn [process_opts po_from po_all]; rewrite Hfrom, decide_False by tauto; done).
  destruct (call_setup zt parse_date graph_order git tmp repo_dir o k R H about HU ltac:(rewrite Er; exact HA) f0 f1 Ht0 Ht1 ltac:(intros c; by apply C68_full_run)) as (s & csg & cs & csm & ls & Es & Ep & El & _).
  unfold temp_files, made. unfold code_setup in Es. destruct (prepare git repo_dir) as [[]|x|x]; cbn [obind] in *; [|injection Es as <-; discriminate Ep|discriminate].
  destruct (read_graph graph_order git o) as [g|x|x]; cbn [obind] in *; [|injection Es as <-; discriminate Ep|discriminate].
  destruct (commit_info zt parse_date git tmp o) as [m|x|x]; cbn [obind] in *; [|injection Es as <-; discriminate Ep|discriminate].
  by rewrite Ht0, Ht1.
Qed.
Print Assumptions C79_two_files_left.
Theorem C79_at_most_two {T} (zt : T) parse_date graph_order git tmp repo_dir o :
  length (temp_files zt parse_date graph_order git tmp repo_dir o) <= 2 /\
  (prepare git repo_dir <> Ret tt -> temp_files zt parse_date graph_order git tmp repo_dir o = []).
Proof.
  unfold temp_files. split.
  - destruct (obind _ _); [|cbn; lia..]. rewrite app_length. assert (Hm : forall n, length (made tmp n) <= 1) by (intros n; unfold made; destruct (tmp n); cbn; lia).
    pose proof (Hm 0). pose proof (Hm 1). destruct (commit_info _ _ _ _ _); cbn [length]; lia.
  - intros Hp. destruct (prepare git repo_dir) as [[]| |]; [done|reflexivity..].
Qed.
Print Assumptions C79_at_most_two.
Theorem C79_no_files_left_refuted : ~ no_files_left.
Proof.
  intros Hall. specialize (Hall any_date map_to_list q_git (fun _ => Ret (B "tmp")) [] (ROpts [] false false false)).
  rewrite (C79_two_files_left 0%N any_date map_to_list q_git (fun _ => Ret (B "tmp")) [] (ROpts [] false false false) 3 q_repo q_hist q_about (B "tmp") (B "tmp")
    q_usable (q_answers false) eq_refl eq_refl eq_refl) in Hall. discriminate Hall.
Qed.
Print Assumptions C79_no_files_left_refuted.
