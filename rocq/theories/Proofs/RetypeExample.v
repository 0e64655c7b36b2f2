(** * Two histories with unusual merges (refutations for C27, C73)

    In the first the merge d4 replaces the file g by a symbolic link; in the second it deletes g and changes the file "@@@del@@@g". *)
From Verif.Model Require Import Base GoStrings IncBlame LogParser ParentsGraph Process.
From Verif.Spec Require Import Text UnifiedDiff Attribution GitLog CommitGraph History Processing.
From Verif.Proofs Require Import TextLemmas LogParse GraphExamples ParentsGraphProofs BlameOf ProcessRegular ProcessMerge ProcessExamples.
From Coq Require Import Lia.

Definition lnk (ls : list bytes) : entry := Entry (B "120000") (CText ls).
Definition T_d4 : tree := {[ f_ := txt [x_; y_]; g_ := lnk [w_]; h_ := txt [w_] ]}.
Definition links : fpatch := FPatch (FCreate g_ (B "120000")) (Some (B "0000000..3333333")) (body [Add w_]).
Definition ex4_hist : history := History ex2_parents
  (pick ∅ [(a1, T_a'); (b2, T_b'); (c3, T_c'); (d4, T_d4)])
  (fun c p => pick [] [(a1, [creates f_ [Add x_]; creates g_ [Add z_]]); (b2, D_ab); (c3, [creates h_ [Add w_]]);
      (d4, if decide (p = b2) then [removal; links; creates h_ [Add w_]] else [modifies f_ [Keep x_; Add y_]; removal; links])] c)
  ex_meta.

Lemma retyped_g t t' : t !! g_ = Some (txt [z_]) -> t' !! g_ = Some (lnk [w_]) -> retyped t t' g_.
Proof. intros Ht Ht'. exists (txt [z_]), (lnk [w_]). split; [done|]. split; [done|]. vm_compute. intros [=]. Qed.
Lemma removal_ok' t t' : t !! g_ = Some (txt [z_]) -> t' !! g_ = Some (lnk [w_]) -> patch_between 3 t t' removal.
Proof.
  intros Ht Ht'. split_and!.
  - split_and!; [split; [split; [done|lk]|split; [done|lk]]|lk|apply wf_text_body; [done|const_nl]].
  - unfold short_lines. repeat constructor.
  - cbn. exists (txt [z_]). split; [done|]. split; [right; by apply retyped_g|]. split; [apply context_top|]. by exists [].
Qed.
Lemma links_ok t t' : t !! g_ = Some (txt [z_]) -> t' !! g_ = Some (lnk [w_]) -> patch_between 3 t t' links.
Proof.
  intros Ht Ht'. split_and!.
  - split_and!; [split; [split; [done|lk]|split; [done|lk]]|lk|apply wf_text_body; [done|const_nl]].
  - unfold short_lines. repeat constructor.
  - cbn. exists (lnk [w_]). split; [done|]. split; [right; by apply retyped_g|]. split; [apply context_top|]. by exists [].
Qed.
(** The two conditions on the order of patches, by checking all pairs. *)
Definition pair_ok (ps : list fpatch) : bool :=
  forallb (fun i => forallb (fun j =>
    match ps !! i, ps !! j with
    | Some p, Some q =>
        (bool_decide (i = j) || bool_decide (name_after (fp_kind p) <> name_after (fp_kind q)) || bool_decide (name_after (fp_kind p) = [])) &&
        match fp_kind q with FDelete g _ => bool_decide (name_after (fp_kind p) <> g) || bool_decide (j < i) | _ => true end
    | _, _ => true
    end) (seq 0 (length ps))) (seq 0 (length ps)).
Lemma describes_check k t t' ps : Forall (patch_between k t t') ps ->
  (forall f, t !! f <> t' !! f ->
     (is_Some (t' !! f) -> exists p, p ∈ ps /\ writes p f) /\ (t' !! f = None -> exists p, p ∈ ps /\ removes p f)) ->
  pair_ok ps = true -> describes k t t' ps.
Proof.
  intros HF HC HP.
  assert (Hx : forall i j p q, ps !! i = Some p -> ps !! j = Some q ->
    (bool_decide (i = j) || bool_decide (name_after (fp_kind p) <> name_after (fp_kind q)) || bool_decide (name_after (fp_kind p) = [])) &&
        match fp_kind q with FDelete g _ => bool_decide (name_after (fp_kind p) <> g) || bool_decide (j < i) | _ => true end = true).
  { intros i j p q Hi Hj. unfold pair_ok in HP. rewrite forallb_forall in HP. specialize (HP i). rewrite forallb_forall in HP.
    specialize (HP ltac:(apply in_seq; apply lookup_lt_Some in Hi; lia) j ltac:(apply in_seq; apply lookup_lt_Some in Hj; lia)).
    by rewrite Hi, Hj in HP. }
  split; [done|]. split; [done|]. split.
  - intros i j p q f Hi Hj [Hne Hp] [_ Hq]. specialize (Hx i j p q Hi Hj). apply andb_prop in Hx as [Hx _].
    apply orb_prop in Hx as [[Hx|Hx]%orb_prop|Hx]; apply bool_decide_eq_true in Hx; [done| |]; exfalso; congruence.
  - intros i j p q f Hi Hj [Hne Hp] Hq. specialize (Hx i j p q Hi Hj). apply andb_prop in Hx as [_ Hx].
    unfold deletes in Hq. destruct (fp_kind q); try done. apply orb_prop in Hx as [Hx|Hx]; apply bool_decide_eq_true in Hx; [exfalso; congruence|done].
Qed.
Ltac same_off4 E := exfalso; apply E; unfold T_a', T_b', T_c', T_d4; rewrite ?lookup_insert_ne, ?lookup_singleton_ne by congruence; done.
Lemma ex4_bd : describes 3 T_b' T_d4 [removal; links; creates h_ [Add w_]].
Proof.
  apply describes_check; [constructor; [by apply removal_ok'|constructor; [by apply links_ok|constructor; [do_creates|constructor]]]| |lk].
  intros f Hd. kase f [f_; g_; h_]; [by destruct Hd|covers links|covers (creates h_ [Add w_])|same_off4 Hd].
Qed.
Lemma ex4_cd : describes 3 T_c' T_d4 [modifies f_ [Keep x_; Add y_]; removal; links].
Proof.
  apply describes_check; [constructor; [do_modifies|constructor; [by apply removal_ok'|constructor; [by apply links_ok|constructor]]]| |lk].
  intros f Hd. kase f [f_; g_; h_]; [covers (modifies f_ [Keep x_; Add y_])|covers links|by destruct Hd|same_off4 Hd].
Qed.
Lemma ex4_valid : valid_history 3 ex4_hist.
Proof.
  split; [apply complete_check; lk|].
  intros c Hc. pose proof ids_ok as Hids. rewrite Forall_forall in Hids.
  assert (Hm : wf_meta (hi_meta ex4_hist c)) by (split_and!; [by apply const_no_nl|by apply const_no_nl|constructor; [by apply const_no_nl|constructor]]).
  destruct (ex2_known c Hc) as [->|[->|[->| ->]]].
  - split_and!; [apply Hids; set_solver|constructor|constructor|done|intros _; exact ex2_a|].
    intros p Hp. by apply elem_of_nil in Hp.
  - split_and!; [apply Hids; set_solver|repeat constructor; lk || done|apply NoDup_singleton|done|done|].
    intros p Hp. change (p ∈ [a1]) in Hp. apply elem_of_list_singleton in Hp as ->. exact ex2_ab.
  - split_and!; [apply Hids; set_solver|repeat constructor; lk || done|apply NoDup_singleton|done|done|].
    intros p Hp. change (p ∈ [a1]) in Hp. apply elem_of_list_singleton in Hp as ->. exact ex2_ac.
  - split_and!; [apply Hids; set_solver|repeat constructor; lk || done|apply (bool_decide_unpack _); lk|done|done|].
    intros p Hp. change (p ∈ [b2; c3]) in Hp. apply elem_of_cons in Hp as [->|Hp]; [exact ex4_bd|].
    apply elem_of_list_singleton in Hp as ->. exact ex4_cd.
Qed.
Lemma ex4_acyclic : acyclic (hi_parents ex4_hist).
Proof. apply (acyclic_check rank_of). lk. Qed.
Lemma ex4_parents_first : parents_first ex4_hist [] ex2_commits.
Proof. repeat (split; [in_list|split; [parents_known|]]). exact I. Qed.

(** ** The second history *)
Definition q_ : bytes := B "@@@del@@@g".
Definition T_a5 : tree := {[ q_ := txt [x_]; g_ := txt [z_] ]}.
Definition T_b5 : tree := {[ q_ := txt [x_; y_]; g_ := txt [z_] ]}.
Definition T_c5 : tree := {[ q_ := txt [x_]; g_ := txt [z_]; h_ := txt [w_] ]}.
Definition T_d5 : tree := {[ q_ := txt [y_]; h_ := txt [w_] ]}.
Definition ex5_hist : history := History ex2_parents
  (pick ∅ [(a1, T_a5); (b2, T_b5); (c3, T_c5); (d4, T_d5)])
  (fun c p => pick [] [(a1, [creates q_ [Add x_]; creates g_ [Add z_]]); (b2, [modifies q_ [Keep x_; Add y_]]); (c3, [creates h_ [Add w_]]);
      (d4, if decide (p = b2) then [modifies q_ [Del x_; Keep y_]; removal; creates h_ [Add w_]] else [modifies q_ [Del x_; Add y_]; removal])] c)
  ex_meta.
Ltac same_off5 E := exfalso; apply E; unfold T_a5, T_b5, T_c5, T_d5; rewrite ?lookup_insert_ne, ?lookup_singleton_ne by congruence; done.
Lemma ex5_a : describes 3 ∅ T_a5 [creates q_ [Add x_]; creates g_ [Add z_]].
Proof.
  apply describes_check; [constructor; [do_creates|constructor; [do_creates|constructor]]| |lk].
  intros f Hd. kase f [q_; g_]; [covers (creates q_ [Add x_])|covers (creates g_ [Add z_])|same_off5 Hd].
Qed.
Lemma ex5_ab : describes 3 T_a5 T_b5 [modifies q_ [Keep x_; Add y_]].
Proof.
  apply describes_check; [constructor; [do_modifies|constructor]| |lk].
  intros f Hd. kase f [q_; g_]; [covers (modifies q_ [Keep x_; Add y_])|by destruct Hd|same_off5 Hd].
Qed.
Lemma ex5_ac : describes 3 T_a5 T_c5 [creates h_ [Add w_]].
Proof.
  apply describes_check; [constructor; [do_creates|constructor]| |lk].
  intros f Hd. kase f [q_; g_; h_]; [by destruct Hd|by destruct Hd|covers (creates h_ [Add w_])|same_off5 Hd].
Qed.
Lemma ex5_bd : describes 3 T_b5 T_d5 [modifies q_ [Del x_; Keep y_]; removal; creates h_ [Add w_]].
Proof.
  apply describes_check; [constructor; [do_modifies|constructor; [by apply removal_ok|constructor; [do_creates|constructor]]]| |lk].
  intros f Hd. kase f [q_; g_; h_]; [covers (modifies q_ [Del x_; Keep y_])|dropped|covers (creates h_ [Add w_])|same_off5 Hd].
Qed.
Lemma ex5_cd : describes 3 T_c5 T_d5 [modifies q_ [Del x_; Add y_]; removal].
Proof.
  apply describes_check; [constructor; [do_modifies|constructor; [by apply removal_ok|constructor]]| |lk].
  intros f Hd. kase f [q_; g_; h_]; [covers (modifies q_ [Del x_; Add y_])|dropped|by destruct Hd|same_off5 Hd].
Qed.
Lemma ex5_valid : valid_history 3 ex5_hist.
Proof.
  split; [apply complete_check; lk|].
  intros c Hc. pose proof ids_ok as Hids. rewrite Forall_forall in Hids.
  assert (Hm : wf_meta (hi_meta ex5_hist c)) by (split_and!; [by apply const_no_nl|by apply const_no_nl|constructor; [by apply const_no_nl|constructor]]).
  destruct (ex2_known c Hc) as [->|[->|[->| ->]]].
  - split_and!; [apply Hids; set_solver|constructor|constructor|done|intros _; exact ex5_a|].
    intros p Hp. by apply elem_of_nil in Hp.
  - split_and!; [apply Hids; set_solver|repeat constructor; lk || done|apply NoDup_singleton|done|done|].
    intros p Hp. change (p ∈ [a1]) in Hp. apply elem_of_list_singleton in Hp as ->. exact ex5_ab.
  - split_and!; [apply Hids; set_solver|repeat constructor; lk || done|apply NoDup_singleton|done|done|].
    intros p Hp. change (p ∈ [a1]) in Hp. apply elem_of_list_singleton in Hp as ->. exact ex5_ac.
  - split_and!; [apply Hids; set_solver|repeat constructor; lk || done|apply (bool_decide_unpack _); lk|done|done|].
    intros p Hp. change (p ∈ [b2; c3]) in Hp. apply elem_of_cons in Hp as [->|Hp]; [exact ex5_bd|].
    apply elem_of_list_singleton in Hp as ->. exact ex5_cd.
Qed.
Lemma ex5_acyclic : acyclic (hi_parents ex5_hist).
Proof. apply (acyclic_check rank_of). lk. Qed.
Lemma ex5_parents_first : parents_first ex5_hist [] ex2_commits.
Proof. repeat (split; [in_list|split; [parents_known|]]). exact I. Qed.
