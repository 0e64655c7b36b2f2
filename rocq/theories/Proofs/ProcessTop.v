(** * Corollaries about whole runs *)
From Verif.Model Require Import Base GoStrings IncBlame LogParser ParentsGraph Process.
From Verif.Spec Require Import Text UnifiedDiff Attribution GitLog CommitGraph History Processing.
From Verif.Proofs Require Import TextLemmas ParsePatch LogParse ParentsGraphProofs BlameOf ProcessRegular ProcessMerge ProcessLoop.
From Coq Require Import Lia.

(** ** One result per commit, for any log (C26) *)
Lemma regular_commit slow r ps c r' res : process_regular slow r ps c = Ret (r', res) -> r_commit res = lc_hash c.
Proof.
  unfold process_regular. destruct ps as [|p [|p' l]]; [| |done]; destruct (ofold _ _ _) as [[r1 x]| |]; cbn [obind]; try done.
  - by intros [= _ <-].
  - destruct (get_commit_must r1 p); cbn [obind]; [|done..]. by intros [= _ <-].
Qed.
Lemma merge_commit o r ps h parts r' res : process_merge o r ps h parts = Ret (r', res) -> r_commit res = h.
Proof.
  unfold process_merge. destruct (collect_diffs _ _); cbn [obind]; try done. destruct (ofold _ _ _) as [x| |]; cbn [obind]; try done.
  destruct (parent_files _ _); cbn [obind]; try done. destruct (ofold _ _ _); cbn [obind]; try done. by intros [= _ <-].
Qed.
Lemma finish_out e s c r res : s_out (finish_commit e s c r res) = s_out s ++ [res].
Proof. done. Qed.

Lemma one_result e gs : forall s, s_mparts s = ∅ ->
  NoDup gs.*1 -> Forall (fun g => g.2 <> [] /\ Forall (fun c => lc_hash c = g.1) g.2 /\ (length (env_parents e g.1) <= 1 -> length g.2 = 1)) gs ->
  forall s' o, process_log e s (concat gs.*2) = (s', o) ->
  exists n, map r_commit (s_out s') = map r_commit (s_out s) ++ take n gs.*1 /\ (o = Ret tt -> n = length gs).
Proof.
  induction gs as [|[h g] gs IH]; intros s Hs Hnd HF s' o E.
  - exists 0. cbn in E. unfold process_log in E. cbn [process_commits] in E. rewrite decide_True in E by done. injection E as <- <-.
    split; [by rewrite app_nil_r|done].
  - apply Forall_cons in HF as [(Hne & Hh & Hl) HF]. cbn [fmap list_fmap fst snd] in *. apply NoDup_cons in Hnd as [Hnin Hnd].
    destruct g as [|c g]; [done|]. clear Hne. apply Forall_cons in Hh as [Hc Hg].
    assert (Hhead : forall x, head (concat gs.*2) = Some x -> h <> lc_hash x).
    { intros x Hx. destruct gs as [|[h' g'] gs']; [done|]. apply Forall_cons in HF as [(Hne & Hh' & _) _]. cbn in *.
      destruct g' as [|y g']; [done|]. cbn in Hx. injection Hx as <-. apply Forall_cons in Hh' as [-> _]. intros ->. apply Hnin. by constructor. }
    cbn [concat] in E.
    assert (Hstep : forall x (r : repo) res sm, s_out sm = s_out s -> r_commit res = h -> x = (finish_commit e sm h r res, Ret tt) ->
      out_step x (fun s1 => process_log e s1 (concat gs.*2)) = (s', o) ->
      exists n, map r_commit (s_out s') = map r_commit (s_out s) ++ take n (h :: gs.*1) /\ (o = Ret tt -> n = S (length gs))).
    { intros x r res sm Hsm Hres -> Ex. cbn [out_step] in Ex. destruct (IH (finish_commit e sm h r res) eq_refl Hnd HF _ _ Ex) as (n & En & Ho).
      exists (S n). rewrite En, finish_out, Hsm, map_app, <-app_assoc. cbn [map app take]. rewrite Hres. split; [done|]. intros Ho'. by rewrite Ho. }
    destruct (decide (1 < length (env_parents e h))) as [Hm|Hm].
    + cbn [app] in E. rewrite log_merge in E; [|done|by rewrite Hc|by rewrite Hc|by rewrite Hc].
      unfold got_merge_parts in E. cbn [s_mcommit with_parts s_repo s_mparts] in E. rewrite Hc in E.
      destruct (process_merge _ _ _ _ _) as [[r res]| |] eqn:Em.
      * eapply Hstep; [|by eapply merge_commit|reflexivity|exact E]. done.
      * cbn [out_step] in E. injection E as <- <-. exists 0. split; [by rewrite app_nil_r|done].
      * cbn [out_step] in E. injection E as <- <-. exists 0. split; [by rewrite app_nil_r|done].
    + specialize (Hl ltac:(lia)). destruct g; [|done]. cbn [app] in E. rewrite log_regular in E; [|done|rewrite Hc; lia].
      unfold new_commit in E. rewrite Hc in E. rewrite decide_False in E by done.
      destruct (process_regular _ _ _ _) as [[r res]| |] eqn:Em.
      * eapply Hstep; [|rewrite <-Hc; by eapply regular_commit|reflexivity|exact E]. done.
      * cbn [out_step] in E. injection E as <- <-. exists 0. split; [by rewrite app_nil_r|done].
      * cbn [out_step] in E. injection E as <- <-. exists 0. split; [by rewrite app_nil_r|done].
Qed.

(** ** The printed log of a valid history is well-formed *)
Section history.
  Context (k : nat) (H : history) (slow : bytes -> bytes -> outcome blame).
  Context (HV : valid_history k H).

  Lemma patches_wf c p : known H c -> p ∈ hparents H c \/ hparents H c = [] /\ p = [] -> Forall wf_patch (hi_diff H c p).
  Proof.
    intros Hc Hp. apply Forall_forall. intros q Hq. destruct Hp as [Hp|[Hp ->]].
    - destruct (describes_parent k H HV c p Hp) as [HF _]. rewrite Forall_forall in HF. by apply HF.
    - destruct (describes_root k H HV c Hc Hp) as [HF _]. rewrite Forall_forall in HF. by apply HF.
  Qed.
  Lemma entries_wf c : known H c -> Forall wf_entry (entries_of H c).
  Proof.
    intros Hc. destruct (proj2 HV c Hc) as (Hid & Hps & _ & (M1 & M2 & M3) & _).
    assert (Hwf : forall from ps, match from with Some p => commit_id p | None => True end -> Forall wf_patch ps -> wf_entry (entry_of H c from ps)).
    { intros from ps Hf HF. unfold entry_of, wf_entry. cbn. split; [done|]. split; [done|]. split; [destruct (decide _); done|]. split; [done|]. split; done. }
    unfold entries_of. pose proof (patches_wf c) as HP. destruct (hparents H c) as [|p [|p' l]] eqn:Ep.
    - constructor; [|constructor]. apply Hwf; [done|]. apply HP; [done|by right].
    - constructor; [|constructor]. apply Hwf; [done|]. apply HP; [done|left; by constructor].
    - destruct (filter _ _) as [|q qs] eqn:Ef.
      + constructor; [|constructor]. by apply Hwf.
      + rewrite <-Ef. apply Forall_forall. intros e He.
        change (e ∈ (fun p0 => entry_of H c (Some p0) (hi_diff H c p0)) <$> filter (fun p0 => hi_diff H c p0 <> []) (p :: p' :: l)) in He.
        apply elem_of_list_fmap in He as (x & -> & Hx). apply elem_of_list_filter in Hx as [_ Hx]. apply Hwf.
        * rewrite Forall_forall in Hps. by apply Hps.
        * apply HP; [done|by left].
  Qed.
  Lemma git_log_wf cs : (forall c, c ∈ cs -> known H c) -> Forall wf_entry (git_log H cs).
  Proof.
    induction cs as [|c cs IH]; intros Hc; [constructor|]. unfold git_log. cbn [map concat]. apply Forall_app. split.
    - apply entries_wf. apply Hc. by constructor.
    - apply IH. intros; apply Hc. by constructor.
  Qed.
  Lemma log_of_history cs : (forall c, c ∈ cs -> known H c) -> short_lines (log_lines (git_log H cs)) ->
    log_run (render_log (git_log H cs)) = (map commit_of (git_log H cs), Ret tt).
  Proof. intros Hc Hs. apply log_run_render; [by apply git_log_wf|done]. Qed.

  Lemma good_text (HS : slow_blame_right H slow) c f b : known H c -> blame_of H slow c f b ->
    forall e, hi_tree H c !! f = Some e ->
    (b_binary b = false -> Forall2 same_up_to_cr (texts (b_lines b)) (content_lines (en_content e))) /\
    (forall l, l ∈ b_lines b -> reaches (hi_parents H) c (l_commit l)).
  Proof.
    intros Hc Hb e He. split.
    - by eapply blame_text.
    - eapply blame_lines; try done.
  Qed.
End history.

(** A prefix of a parents-first order. *)
Lemma parents_first_app H before cs1 cs2 : parents_first H before (cs1 ++ cs2) ->
  parents_first H before cs1 /\ (forall c, c ∈ cs1 -> c ∉ cs2) /\ parents_first H (rev cs1 ++ before) cs2.
Proof.
  revert before. induction cs1 as [|c cs1 IH]; intros before; [intros; split_and!; [done| |done]; intros c Hc; by apply elem_of_nil in Hc|].
  cbn. intros (Hn & Hp & Hr). apply IH in Hr as (A & B & C). rewrite <-app_assoc. cbn. split_and!.
  - intros Hc. apply Hn. apply elem_of_app. by left.
  - intros p Hpp. destruct (Hp p Hpp) as [? Hn']. split; [done|]. intros ?. apply Hn', elem_of_app. by left.
  - done.
  - intros x Hx. apply elem_of_cons in Hx as [->|Hx]; [|by apply B]. intros ?. apply Hn, elem_of_app. by right.
  - done.
Qed.

Lemma rev_lookup {A} (l : list A) n x : rev l !! n = Some x -> l !! (length l - S n) = Some x.
Proof.
  intros H. pose proof (lookup_lt_Some _ _ _ H) as Hl. rewrite rev_length in Hl. rewrite rev_alt in H.
  change (rev_append l []) with (reverse l) in H. by rewrite reverse_lookup in H.
Qed.
