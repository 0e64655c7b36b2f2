(** * C88: the files of a commit *)
From Verif.Model Require Import Base GoStrings IncBlame CommitMeta BlameCommit.
From Verif.Spec Require Import Text UnifiedDiff TreeList Validation.
From Verif.Proofs Require Import TextLemmas TrimProofs ValidateProofs.
From Coq Require Import Lia.

Lemma plain_not_nl p : plain_path p -> NL ∉ p.
Proof. intros [_ H] Hin. rewrite forallb_forall in H. apply elem_of_list_In, H in Hin. vm_compute in Hin. discriminate Hin. Qed.
Lemma unlines_join l : l <> [] -> unlines l = join [NL] l ++ [NL].
Proof.
  unfold unlines. induction l as [|s l IH]; [done|]. intros _. cbn [map concat]. destruct l as [|s' l]; [cbn; by rewrite app_nil_r|].
  rewrite IH by done. cbn [join]. by rewrite <- !app_assoc.
Qed.
Lemma join_first (s : bytes) l : exists y, join [NL] (s :: l) = s ++ y.
Proof. destruct l as [|s' l]; [exists []; by rewrite app_nil_r|]. cbn [join]. by eexists. Qed.
Lemma join_last (l : list bytes) s : exists x, join [NL] (l ++ [s]) = x ++ s.
Proof.
  induction l as [|a l IH]; [exists []; done|]. destruct IH as [x Hx]. exists (a ++ [NL] ++ x). cbn [app]. destruct (l ++ [s]) as [|b r] eqn:E; [by destruct l|].
  cbn [join]. cbn [join] in Hx. rewrite Hx. by rewrite <- !app_assoc.
Qed.
(** What is trimmed is the start of the first and the end of the last line. *)
Lemma trim_unlines (l : list bytes) a b : l <> [] -> head l = Some a -> last l = Some b ->
  no_first_white a -> no_last_white b -> a <> [] -> b <> [] ->
  trim_space (unlines l) = join [NL] l.
Proof.
  intros Hl Ha Hb H1 H2 Na Nb. rewrite unlines_join by done. apply trim_bare_nl. intros w r Hw. split.
  - destruct l as [|a' l]; [done|]. injection Ha as ->. destruct l as [|s l]; [by apply H1|]. change (join [NL] (a :: s :: l)) with (a ++ [NL] ++ join [NL] (s :: l)).
    apply no_front; [exact Na|exact H1| |exact Hw]. intros c u [= <- _]. reflexivity.
  - apply last_Some in Hb as [l' ->]. destruct l' as [|s l' _] using rev_ind; [by apply H2|]. clear -H2 Nb Hw. revert r. 
    assert (E : exists x, join [NL] ((l' ++ [s]) ++ [b]) = x ++ NL :: b).
    { induction l' as [|y l' IH]; [exists s; done|]. destruct IH as [x Hx]. exists (y ++ [NL] ++ x). cbn [app]. destruct ((l' ++ [s]) ++ [b]) as [|z u] eqn:E; [by destruct l'|].
      cbn [join]. cbn [join] in Hx. rewrite Hx. by rewrite <- !app_assoc. }
    destruct E as [x ->]. intros r. apply no_back; [reflexivity|exact Nb|exact H2|exact Hw].
Qed.
Lemma blames_of files : forall m p b, fold_left (fun m p => <[p := Blame [] [] true]> m) files m !! p = Some b <->
  (p ∈ (files : list bytes) /\ b = Blame [] [] true) \/ (p ∉ (files : list bytes) /\ (m : gmap bytes blame) !! p = Some b).
Proof.
  induction files as [|f files IH]; intros m p b; cbn [fold_left].
  - split; [intros H; right; split; [apply not_elem_of_nil|done]|]. intros [[H _]|[_ H]]; [by apply elem_of_nil in H|done].
  - rewrite IH. rewrite !not_elem_of_cons, elem_of_cons. destruct (decide (p = f)) as [->|Hp]; [rewrite lookup_insert|rewrite lookup_insert_ne by done].
    + destruct (decide (f ∈ (files : list bytes))) as [Hf|Hf]; split.
      * intros [[_ H]|[H _]]; [|done]. left. by split; [left|].
      * intros [[_ H]|[[H _] _]]; [|done]. left. by split.
      * intros [[H _]|[_ [= <-]]]; [done|]. left. by split; [left|].
      * intros [[_ ->]|[[H _] _]]; [|done]. right. by split.
    + split; (intros [[H1 H2]|[H1 H2]]; [left|right]); (split; [|done]).
      * by right. * by split. * by destruct H1. * by destruct H1.
Qed.

(** C88: if a commit has files, with names git prints as they are, the first not starting and the last not ending with a space, the files named are
    the files of the commit, each as a binary file.

    Partial: the property asks this for every commit, which is false (below). *)
Theorem C88_files_partial git commit names :
  git (tree_command commit) = Ret (unlines names) ->
  Forall plain_path names -> names <> [] ->
  (forall n, head names = Some n -> no_first_white n) -> (forall n, last names = Some n -> no_last_white n) ->
  list_of_files (git (tree_command commit)) = Ret names /\
  exists m, blame_commit git commit = Ret m /\ forall p b, m !! p = Some b <-> p ∈ names /\ b = Blame [] [] true.
Proof.
  intros Hg HF Hne Hfirst Hlast. assert (E : list_of_files (git (tree_command commit)) = Ret names).
  { rewrite Hg. unfold list_of_files. destruct (head names) as [a|] eqn:Ea; [|by destruct names]. destruct (last names) as [b|] eqn:Eb; [|by apply last_None in Eb].
    assert (Pa : plain_path a) by (destruct names as [|a' names]; [done|]; injection Ea as <-; by apply Forall_inv in HF).
    assert (Pb : plain_path b) by (apply last_Some in Eb as [l ->]; rewrite Forall_app, Forall_singleton in HF; apply HF).
    rewrite (trim_unlines names a b); [|done..| | |apply Pa|apply Pb].
    - rewrite split_char_join; [done|done|]. eapply Forall_impl; [exact HF|]. intros n. apply plain_not_nl.
    - by apply Hfirst.
    - by apply Hlast. }
  split; [exact E|]. unfold blame_commit. change ls_tree_args with tree_command. rewrite E. eexists. split; [reflexivity|]. intros p b. rewrite blames_of.
  split; [intros [H|[_ H]]; [done|by rewrite lookup_empty in H]|by left].
Qed.
Print Assumptions C88_files_partial.

(** A commit without files has a file with an empty name. *)
Theorem C88_empty_refuted git commit : git (tree_command commit) = Ret (unlines []) ->
  exists m, blame_commit git commit = Ret m /\ m !! B "" = Some (Blame [] [] true).
Proof. intros Hg. unfold blame_commit. change ls_tree_args with tree_command. rewrite Hg. eexists. split; [reflexivity|]. vm_compute. reflexivity. Qed.
Print Assumptions C88_empty_refuted.

Lemma quoted_bare q : bare (quoted q).
Proof.
  apply bare_ends; unfold quoted; intros c r E; [by injection E as <- _|]. rewrite app_comm_cons in E. by apply app_inj_tail in E as [_ <-].
Qed.
(** A name git prints in quotes is not among the files; what git prints is. *)
Theorem C88_quoted_refuted git commit n s : ~ plain_path n -> n <> [] -> shown n s -> git (tree_command commit) = Ret (unlines [s]) ->
  exists m, blame_commit git commit = Ret m /\ (n <> s -> m !! n = None) /\ m !! s = Some (Blame [] [] true).
Proof.
  intros Hn Hne Hs Hg. inversion Hs as [n' Hp|n' q Hn' Hq]; subst; [done|]. destruct Hq as [Hq1 Hq2].
  assert (Hnl : NL ∉ quoted q).
  { unfold quoted. rewrite not_elem_of_cons, not_elem_of_app. split; [by vm_compute|]. split.
    - intros Hin. rewrite forallb_forall in Hq2. apply elem_of_list_In, Hq2 in Hin. vm_compute in Hin. discriminate Hin.
    - rewrite not_elem_of_cons. split; [by vm_compute|apply not_elem_of_nil]. }
  assert (E : list_of_files (Ret (unlines [quoted q])) = Ret [quoted q]).
  { unfold list_of_files. rewrite (trim_unlines [quoted q] (quoted q) (quoted q)); [|done..| | |done|done].
    - rewrite split_char_join; [done|done|]. by apply Forall_singleton.
    - intros w r Hw. exact (proj1 (quoted_bare q w r Hw)).
    - intros w r Hw. exact (proj2 (quoted_bare q w r Hw)). }
  unfold blame_commit. change ls_tree_args with tree_command. rewrite Hg, E. eexists. split; [reflexivity|]. cbn [fold_left]. split; [intros Hd; rewrite lookup_insert_ne by done; apply lookup_empty|apply lookup_insert].
Qed.
Print Assumptions C88_quoted_refuted.

(** A file whose name starts with a space is listed under another name if it comes first (and a space comes before the letters). *)
Theorem C88_space_refuted git commit c r : plain_path (SP :: c :: r) -> no_first_white (c :: r) -> no_last_white (c :: r) ->
  git (tree_command commit) = Ret (unlines [SP :: c :: r]) ->
  exists m, blame_commit git commit = Ret m /\ m !! (SP :: c :: r : bytes) = None /\ m !! (c :: r : bytes) = Some (Blame [] [] true).
Proof.
  intros Hp Hc Hl Hg. assert (Hp' : plain_path (c :: r)) by (split; [done|]; destruct Hp as [_ H]; cbn [forallb] in *; by apply andb_true_iff in H as [_ H]).
  assert (E : list_of_files (Ret (unlines [SP :: c :: r])) = Ret [c :: r : bytes]).
  { unfold list_of_files. assert (Et : trim_space (unlines [SP :: c :: r]) = c :: r).
    { symmetry. apply trimmed_iff. exists [[SP]], [[NL]]. split; [unfold unlines; cbn; by rewrite app_nil_r|]. split.
      - apply Forall_cons. split; [apply white_rune, rune1; reflexivity|]. apply Forall_cons. split; [apply white_nl|by apply Forall_nil].
      - intros w u Hw. split; [by apply Hc|by apply Hl]. }
    rewrite Et. by rewrite split_char_no by by apply plain_not_nl. }
  unfold blame_commit. change ls_tree_args with tree_command. rewrite Hg, E. eexists. split; [reflexivity|]. cbn [fold_left]. split; [|apply lookup_insert].
  rewrite lookup_insert_ne; [apply lookup_empty|]. intros Eq. apply (f_equal length) in Eq. cbn in Eq. lia.
Qed.
Print Assumptions C88_space_refuted.

(** If git fails, the program ends. *)
Theorem C88_failure_refuted git commit e : git (tree_command commit) = Err e -> blame_commit git commit = Panic e.
Proof. intros Hg. unfold blame_commit. change ls_tree_args with tree_command. by rewrite Hg. Qed.
Print Assumptions C88_failure_refuted.

Definition bc_names : list bytes := [B "a file.txt"; B "dir/b"; B "z"].
Definition bc_git (args : list bytes) : outcome bytes := if decide (args = tree_command (B "abc")) then Ret (unlines bc_names) else Err (B "no such commit").
Example C88_hypotheses_hold :
  bc_git (tree_command (B "abc")) = Ret (unlines bc_names) /\ Forall plain_path bc_names /\ bc_names <> [] /\
  (forall n, head bc_names = Some n -> no_first_white n) /\ (forall n, last bc_names = Some n -> no_last_white n) /\ ls_tree bc_names (unlines bc_names) /\
  plain_path (B " a") /\ ~ plain_path (B "a""b") /\ shown (B "a""b") (quoted (B "a\""b")).
Proof.
  assert (HF : Forall plain_path bc_names) by (repeat (apply Forall_cons_2; [by split|]); apply Forall_nil_2).
  split; [vm_compute; reflexivity|]. split; [exact HF|]. split; [discriminate|].
  assert (Hb : forall n, n ∈ [B "a file.txt"; B "z"] -> bare n).
  { intros n Hn. apply bare_ends; intros c r ->; (apply elem_of_cons in Hn as [E|Hn%elem_of_list_singleton]; [|rename Hn into E]).
    - by injection E as -> _.
    - by injection E as -> _.
    - apply (f_equal last) in E. rewrite last_snoc in E. vm_compute in E. injection E as ->. reflexivity.
    - apply (f_equal last) in E. rewrite last_snoc in E. vm_compute in E. injection E as ->. reflexivity. }
  split; [intros n [= <-] w r Hw; apply (Hb (B "a file.txt") ltac:(left) w r Hw)|].
  split; [intros n [= <-] w r Hw; apply (Hb (B "z") ltac:(right; left) w r Hw)|].
  split; [exists bc_names; split; [|reflexivity]; repeat (apply Forall2_cons_2; [by apply shown_plain|]); apply Forall2_nil_2|].
  split; [by split|]. assert (Hn : ~ plain_path (B "a""b")) by (intros [_ H]; vm_compute in H; discriminate H).
  split; [exact Hn|]. apply shown_quoted; [exact Hn|]. by split.
Qed.
