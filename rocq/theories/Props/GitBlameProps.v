(** * C55: reading the output of git blame *)
From Verif.Model Require Import Base GoStrings IncBlame ParentsGraph GitBlame.
From Verif.Spec Require Import Text Attribution GitLog CommitGraph History Porcelain.
From Verif.Proofs Require Import TextLemmas LogParse GitBlameProofs ProcessExamples.
From Coq Require Import Lia.

(** Every line of the file, in order, with its exact content and its commit, whatever data git prints about the commits. *)
Theorem C55_lines git commit file ls :
  Forall wf_porcelain ls -> git commit file = Ret (render_porcelain ls) ->
  git_blame git commit file = Ret (map (fun p => (po_text p, po_commit p)) ls) /\
  slow_git_blame git commit file = Ret (Blame commit (map (fun p => Line (po_text p) (po_commit p)) ls) false).
Proof.
  intros Hw Hg. unfold slow_git_blame, git_blame. rewrite Hg, (parse_render ls Hw). cbn [obind]. rewrite out_basic. split; [done|]. by rewrite map_map.
Qed.
Print Assumptions C55_lines.

(** When git prints the data of a commit with its first line only, every line of the commit gets it. *)
Theorem C55_metadata_partial ls :
  Forall wf_porcelain ls -> printed_once ls ->
  exists res, parse_output (render_porcelain ls) = Ret res /\ length res = length ls /\
    forall i p, ls !! i = Some p -> exists r q, res !! i = Some r /\ pl_commit r = po_commit p /\ pl_content r = po_text p /\
      first_of ls (po_commit p) q /\ pl_meta r = data_of q.
Proof.
  intros Hw Ho. exists (lines_out ∅ ls). split; [by apply parse_render|]. split; [apply out_length|]. intros i p Hi.
  destruct (lookup_lt_is_Some_2 (lines_out ∅ ls) i) as [r Hr]; [rewrite out_length; by eapply lookup_lt_Some|].
  destruct (out_once ls i p r Ho Hi Hr) as (j & q & Hj & Hq & Hc & Hf & Hm). exists r, q. split; [done|].
  pose proof (f_equal (lookup i) (out_basic ∅ ls)) as Hb.
  change (((fun l => (pl_content l, pl_commit l)) <$> lines_out ∅ ls) !! i = ((fun p => (po_text p, po_commit p)) <$> ls) !! i) in Hb.
  rewrite !list_lookup_fmap, Hr, Hi in Hb. injection Hb as -> ->. split; [done|]. split; [done|]. split; [|done]. by exists j.
Qed.
Print Assumptions C55_metadata_partial.

Definition ex_blame : list porcelain :=
  [Porcelain (B "a1") (B " 1 1 2") [(B "author", Some (B "A U Thor")); (B "summary", Some (B "add a")); (B "boundary", None); (B "filename", Some (B "m.go"))] (B "package main");
   Porcelain (B "a1") (B " 2 2") [] (TAB :: B "x");
   Porcelain (B "b2") (B " 1 3 1") [(B "author", Some (B "")); (B "filename", Some (B "m.go"))] [];
   Porcelain (B "a1") (B " 3 4 1") [] (B "author Somebody Else")].
Example C55_hypotheses_hold : Forall wf_porcelain ex_blame /\ printed_once ex_blame.
Proof.
  split.
  - assert (Hm : forall k v, k <> [] -> forallb (fun c => bool_decide (c <> SP /\ c <> NL /\ c <> TAB)) k = true -> forallb (fun c => bool_decide (c <> NL)) v = true -> wf_meta (k, Some v) /\ wf_meta (k, None)).
    { intros k v H1 H2 H3. rewrite forallb_forall in H2, H3. assert (Hk : forall c, c ∈ k -> c <> SP /\ c <> NL /\ c <> TAB) by (intros c Hc; apply (bool_decide_unpack _); apply Is_true_true, H2; by apply elem_of_list_In).
      assert (Hv : forall c, c ∈ v -> c <> NL) by (intros c Hc; apply (bool_decide_unpack _); apply Is_true_true, H3; by apply elem_of_list_In).
      assert (SP ∉ k) by (intros Hin; by destruct (Hk _ Hin)). assert (NL ∉ k) by (intros Hin; by destruct (Hk _ Hin) as (_ & ? & _)). assert (TAB ∉ k) by (intros Hin; by destruct (Hk _ Hin) as (_ & _ & ?)).
      assert (NL ∉ v) by (intros Hin; by destruct (Hv _ Hin)). split; (split; [done|]; split; [done|]; split; [done|]; split; [done|]; cbn; done). }
    assert (Hnl : forall s, forallb (fun c => bool_decide (c <> NL)) s = true -> NL ∉ s).
    { intros s H Hin. rewrite forallb_forall in H. apply elem_of_list_In in Hin. specialize (H _ Hin). by rewrite bool_decide_eq_true in H. }
    assert (Hid : forall s, s <> [] -> forallb hex_char s = true -> commit_id s) by (intros s H1 H2; by split).
    unfold ex_blame. repeat apply Forall_cons_2; [| | | |apply Forall_nil_2];
      (split; [apply Hid; [done|vm_compute; reflexivity]|split; [right; by eexists|split; [by apply Hnl|split; [|split; [apply (bool_decide_unpack _); vm_compute; exact I|by apply Hnl]]]]]); cbn [po_meta];
      repeat apply Forall_cons_2; try apply Forall_nil_2;
      (eapply Hm; [done|vm_compute; reflexivity|vm_compute; reflexivity]) || (apply (Hm _ []); [done|vm_compute; reflexivity|vm_compute; reflexivity]).
  - intros i p Hi. destruct i as [|[|[|[|i]]]]; [injection Hi as <-..|]; [| | | |done]; cbn [po_meta]; (split; [|]).
    + intros _ j q Hj. lia.
    + done.
    + done.
    + intros H. exfalso. by apply (H 0 _ ltac:(lia) eq_refl).
    + intros _ j q Hj Hq. destruct j as [|[|j]]; [injection Hq as <-; done..|lia].
    + done.
    + done.
    + intros H. exfalso. by apply (H 0 _ ltac:(lia) eq_refl).
Qed.

(** Not otherwise: for a commit that wrote lines under two names git prints the name again with each group of lines, and the author and
    everything else known about the commit is lost for these lines. *)
Theorem C55_metadata_refuted c n1 n2 n3 author f g t1 t2 t3 :
  let ls := [Porcelain c n1 [(B "author", Some author); (B "filename", Some f)] t1; Porcelain c n2 [(B "filename", Some g)] t2; Porcelain c n3 [] t3] in
  Forall wf_porcelain ls ->
  exists res, parse_output (render_porcelain ls) = Ret res /\
    (pl_meta <$> res !! 0) ≫= lookup (B "author") = Some author /\
    (pl_meta <$> res !! 1) ≫= lookup (B "author") = None /\ (pl_meta <$> res !! 2) ≫= lookup (B "author") = None.
Proof.
  intros ls Hw. exists (lines_out ∅ ls). split; [by apply parse_render|]. subst ls. cbn [lines_out po_commit po_text].
  assert (Hne : forall (p : porcelain), po_meta p <> [] -> data_of p <> ∅) by (intros p Hp Hx; by apply Hp, data_empty).
  rewrite !decide_False by (by apply Hne). rewrite decide_True by done. cbn [lookup list_lookup fmap option_fmap option_map mbind option_bind pl_meta]. rewrite lookup_insert. split; [|split].
  - unfold data_of. cbn. done.
  - unfold data_of. cbn. done.
  - unfold data_of. cbn. done.
Qed.
Print Assumptions C55_metadata_refuted.

(** So the blame the history walk falls back on is the one it needs, for any git whose blame lists the lines of the file with commits of its
    history: the assumption [slow_blame_right] of C26 and the others is about git only. *)
Theorem C55_fallback_blame H git :
  (forall c f e, hi_tree H c !! f = Some e -> exists ls, git c f = Ret (render_porcelain ls) /\ Forall wf_porcelain ls /\
     map po_text ls = content_lines (en_content e) /\ forall p, p ∈ ls -> reaches (hi_parents H) c (po_commit p)) ->
  slow_blame_right H (slow_git_blame git).
Proof.
  intros Hg c f e He. destruct (Hg c f e He) as (ls & Eg & Hw & Ht & Hr). destruct (C55_lines git c f ls Hw Eg) as [_ Es]. eexists. split; [exact Es|]. split; [done|]. cbn [b_lines]. split.
  - rewrite <- Ht. unfold texts. rewrite map_map. cbn. clear. induction ls; constructor; [apply cr_refl|done].
  - intros l Hl. change (l ∈ (fun p => Line (po_text p) (po_commit p)) <$> ls) in Hl. apply elem_of_list_fmap in Hl as (p & -> & Hp). by apply Hr.
Qed.
Print Assumptions C55_fallback_blame.
(** A git that attributes every line to the commit asked for. *)
Definition plain_blame (c f : bytes) : outcome bytes :=
  match hi_tree ex_hist c !! f with
  | Some e => Ret (render_porcelain (map (Porcelain c (B " 1 1 1") []) (content_lines (en_content e))))
  | None => Err (B "no such path")
  end.
Example C55_fallback_hypotheses_hold : forall c f e, hi_tree ex_hist c !! f = Some e -> exists ls, plain_blame c f = Ret (render_porcelain ls) /\ Forall wf_porcelain ls /\
     map po_text ls = content_lines (en_content e) /\ forall p, p ∈ ls -> reaches (hi_parents ex_hist) c (po_commit p).
Proof.
  intros c f e He. exists (map (Porcelain c (B " 1 1 1") []) (content_lines (en_content e))). split; [unfold plain_blame; by rewrite He|]. split; [|split].
  - assert (Hpick : forall (A : Type) (d : A) l x, pick d l x = d \/ (x, pick d l x) ∈ l).
    { intros A d l x. unfold pick. destruct (list_find (fun y : bytes * A => y.1 = x) l) as [[i [k a]]|] eqn:E; [|by left]. right. apply list_find_Some in E as (Hi & Hx & _). cbn in Hx. subst k. by eapply elem_of_list_lookup_2. }
    assert (Hl : commit_id c /\ Forall (fun t => NL ∉ t) (content_lines (en_content e))).
    { change (hi_tree ex_hist c) with (pick ∅ [(a1, T_a); (b2, T_b); (c3, T_c); (d4, T_d); (e5, T_e)] c) in He.
      destruct (Hpick _ ∅ [(a1, T_a); (b2, T_b); (c3, T_c); (d4, T_d); (e5, T_e)] c) as [E|Hin]; [rewrite E in He; by rewrite lookup_empty in He|].
      revert Hin He. generalize (pick ∅ [(a1, T_a); (b2, T_b); (c3, T_c); (d4, T_d); (e5, T_e)] c). intros t Hin He.
      assert (Ht : forall ls, forallb (fun s => forallb (fun c => bool_decide (c <> NL)) s) ls = true -> Forall (fun t => NL ∉ t) ls).
      { intros ls H. rewrite forallb_forall in H. apply Forall_forall. intros s Hs Hn. apply elem_of_list_In in Hs. specialize (H _ Hs). rewrite forallb_forall in H. apply elem_of_list_In in Hn. specialize (H _ Hn). by rewrite bool_decide_eq_true in H. }
      repeat (apply elem_of_cons in Hin as [[= -> ->]|Hin]); [..|by apply elem_of_nil in Hin];
        (split; [split; [done|vm_compute; reflexivity]|]); unfold T_a, T_b, T_c, T_d, T_e in He;
        repeat first [apply lookup_singleton_Some in He as [<- <-]|apply lookup_insert_Some in He as [[<- <-]|[_ He]]]; apply Ht; vm_compute; reflexivity. }
    destruct Hl as [Hc Hl]. induction Hl as [|t l Ht _ IH]; [constructor|]. constructor; [|exact IH]. split; [exact Hc|]. split; [right; by eexists|]. split; [|split; [constructor|split; [constructor|exact Ht]]].
    apply (bool_decide_unpack _). vm_compute. exact I.
  - rewrite map_map. apply map_id.
  - intros p Hp. change (p ∈ Porcelain c (B " 1 1 1") [] <$> content_lines (en_content e)) in Hp. apply elem_of_list_fmap in Hp as (t & -> & _). apply rtc_refl.
Qed.

(** A failure of git is a crash. *)
Theorem C55_git_failure git commit file e : git commit file = Err e -> slow_git_blame git commit file = Panic e.
Proof. intros Hg. unfold slow_git_blame, git_blame. by rewrite Hg. Qed.
Print Assumptions C55_git_failure.
