(** * Two concrete histories (used to show that hypotheses can be met, and for refutations)

    a1 creates f; b2 appends to it; c3 creates g; d4 merges b2 and c3 and changes f; e5 renames g to h.
    In the second history the merge d4 deletes g instead, and there is no e5. *)
From Verif.Model Require Import Base GoStrings IncBlame LogParser ParentsGraph Process.
From Verif.Spec Require Import Text UnifiedDiff Attribution GitLog CommitGraph History Processing.
From Verif.Proofs Require Import TextLemmas LogParse GraphExamples ParentsGraphProofs BlameOf ProcessRegular ProcessMerge.
From Coq Require Import Lia.

(** ** Sufficient conditions *)
Lemma describes_distinct k t t' ps : Forall (patch_between k t t') ps ->
  (forall f, t !! f <> t' !! f ->
     (is_Some (t' !! f) -> exists p, p ∈ ps /\ writes p f) /\ (t' !! f = None -> exists p, p ∈ ps /\ removes p f)) ->
  NoDup (map (fun p => kind_new (fp_kind p)) ps) -> describes k t t' ps.
Proof.
  intros HF HC HN. change (map (fun p => kind_new (fp_kind p)) ps) with ((fun p => kind_new (fp_kind p)) <$> ps) in HN.
  assert (Hw : forall p f, writes p f -> kind_new (fp_kind p) = f).
  { intros p f [Hne E]. destruct (fp_kind p); cbn in *; done. }
  assert (Hi : forall i j p q f, ps !! i = Some p -> ps !! j = Some q -> kind_new (fp_kind p) = f -> kind_new (fp_kind q) = f -> i = j).
  { intros i j p q f Hi Hj Ep Eq. eapply (NoDup_lookup _ _ _ f HN); rewrite list_lookup_fmap; [rewrite Hi|rewrite Hj]; cbn; congruence. }
  split_and!; [done|done| |].
  - intros i j p q f Hpi Hqj Hp Hq. eapply Hi; [exact Hpi|exact Hqj|by apply Hw|by apply Hw].
  - intros i j p q f Hpi Hqj Hp Hq. assert (kind_new (fp_kind q) = f) as E by (unfold deletes in Hq; destruct (fp_kind q); done).
    assert (i = j) as -> by (eapply Hi; [exact Hpi|exact Hqj|by apply Hw|exact E]). rewrite Hpi in Hqj. injection Hqj as ->.
    unfold deletes in Hq. destruct Hp as [Hne Hp]. destruct (fp_kind q); cbn in *; done.
Qed.

(** ** The pieces *)
Definition txt (ls : list bytes) : entry := Entry (B "100644") (CText ls).
Definition f_ := B "f". Definition g_ := B "g". Definition h_ := B "h".
Definition x_ := B "x". Definition y_ := B "y". Definition z_ := B "z". Definition w_ := B "w".
Definition a1 := B "a1". Definition b2 := B "b2". Definition c3 := B "c3". Definition d4 := B "d4". Definition e5 := B "e5".

Definition T_a : tree := {[ f_ := txt [x_] ]}.
Definition T_b : tree := {[ f_ := txt [x_; y_] ]}.
Definition T_c : tree := {[ f_ := txt [x_]; g_ := txt [z_] ]}.
Definition T_d : tree := {[ f_ := txt [w_; x_; y_]; g_ := txt [z_] ]}.
Definition T_e : tree := {[ f_ := txt [w_; x_; y_]; h_ := txt [z_] ]}.

Definition body (b : list edit) : fbody := FBText [SHunk [] (map (fun e => (e, false)) b) []].
Definition creates (f : bytes) (b : list edit) : fpatch := FPatch (FCreate f (B "100644")) (Some (B "0000000..1111111")) (body b).
Definition modifies (f : bytes) (b : list edit) : fpatch := FPatch (FModify f None) (Some (B "1111111..2222222 100644")) (body b).
Definition D_a := [creates f_ [Add x_]].
Definition D_ab := [modifies f_ [Keep x_; Add y_]].
Definition D_ac := [creates g_ [Add z_]].
Definition D_bd := [modifies f_ [Add w_; Keep x_; Keep y_]; creates g_ [Add z_]].
Definition D_cd := [modifies f_ [Add w_; Keep x_; Add y_]].
Definition D_de := [FPatch (FRename g_ h_ (B "100%") None) None FBNone].

Definition pick {A} (d : A) (l : list (bytes * A)) (c : bytes) : A :=
  match list_find (fun x => x.1 = c) l with Some (_, (_, a)) => a | None => d end.
Definition ex_parents : graph := {[ a1 := []; b2 := [a1]; c3 := [a1]; d4 := [b2; c3]; e5 := [d4] ]}.
Definition ex_meta (c : bytes) : cmeta := CMeta (B "b2 c3") (B "A <a@x>") [B "commit " ++ B "title"] 1.
Definition ex_hist : history := History ex_parents
  (pick ∅ [(a1, T_a); (b2, T_b); (c3, T_c); (d4, T_d); (e5, T_e)])
  (fun c p => pick [] [(a1, D_a); (b2, D_ab); (c3, D_ac); (d4, if decide (p = b2) then D_bd else D_cd); (e5, D_de)] c)
  ex_meta.

Ltac lk := vm_compute; reflexivity.
Ltac kase f l :=
  match l with
  | nil => idtac
  | cons ?a ?r => let E := fresh "E" in destruct (decide (f = a)) as [E|E]; [subst f|kase f r]
  end.

Lemma wf_text_body b : b <> [] -> Forall (fun e => no_nl (edit_text e)) b -> wf_body (body b).
Proof.
  intros Hne HF. split; [done|]. constructor; [|constructor]. split; [apply not_elem_of_nil|].
  cbn. apply Forall_fmap. eapply Forall_impl; [exact HF|]. done.
Qed.
Lemma context_top k b : has_context k 0 true [SHunk [] b []].
Proof. cbn. split_and!; [by left|by left|done]. Qed.

Lemma creates_ok k t t' f ls b :
  t !! f = None -> t' !! f = Some (txt ls) -> old_text b = [] -> new_text b = ls -> b <> [] ->
  plain_path f -> Forall (fun e => no_nl (edit_text e)) b -> short_lines (patch_lines (creates f b)) -> patch_between k t t' (creates f b).
Proof.
  intros Ht Ht' Ho Hn Hb Hf Hnl Hs. split_and!.
  - split_and!; [split; [done|split; [done|vm_compute; reflexivity]]|vm_compute; reflexivity|by apply wf_text_body].
  - done.
  - cbn. exists (txt ls). split; [done|]. split; [by left|]. split; [apply context_top|]. exists [].
    unfold script, hunk_script. cbn. rewrite map_map. cbn. rewrite map_id, !app_nil_r. cbn. by rewrite Ho, Hn.
Qed.
Lemma modifies_ok k t t' f ls ls' b :
  t !! f = Some (txt ls) -> t' !! f = Some (txt ls') -> ls <> ls' -> old_text b = ls -> new_text b = ls' -> b <> [] ->
  plain_path f -> Forall (fun e => no_nl (edit_text e)) b -> short_lines (patch_lines (modifies f b)) -> patch_between k t t' (modifies f b).
Proof.
  intros Ht Ht' Hne Ho Hn Hb Hf Hnl Hs. split_and!.
  - split_and!; [split; [done|done]|vm_compute; reflexivity|by apply wf_text_body].
  - done.
  - cbn. exists (txt ls), (txt ls'). split; [done|]. split; [done|]. split; [intros [= E]; by apply Hne|].
    split.
    + intros (e & e' & E & E' & Hd). rewrite Ht in E. rewrite Ht' in E'. injection E as <-. injection E' as <-. done.
    + split; [apply context_top|]. exists []. unfold script, hunk_script. cbn. rewrite map_map. cbn. rewrite map_id, !app_nil_r. cbn. by rewrite Ho, Hn.
Qed.
Ltac const_nl := repeat constructor; by apply const_no_nl.
Ltac do_creates := eapply creates_ok; [lk|lk|reflexivity|reflexivity|done|split; [done|lk]|const_nl|unfold short_lines; repeat constructor].
Ltac do_modifies := eapply modifies_ok; [lk|lk|done|reflexivity|reflexivity|done|split; [done|lk]|const_nl|unfold short_lines; repeat constructor].

Ltac same_off E := exfalso; apply E; unfold T_a, T_b, T_c, T_d, T_e; rewrite ?lookup_insert_ne, ?lookup_singleton_ne by congruence; done.
Ltac is_some_no := let H := fresh in intros H; vm_compute in H; (by destruct H || discriminate H).
Ltac covers p := split; [intros _; exists p; split; [set_solver|split; [done|lk]]|intros H; vm_compute in H; discriminate H].

Lemma D_a_ok : describes 3 ∅ T_a D_a.
Proof.
  apply describes_distinct; [constructor; [do_creates|constructor]| |apply (bool_decide_unpack _); vm_compute; exact I].
  intros f Hd. kase f [f_]; [covers (creates f_ [Add x_])|same_off Hd].
Qed.
Lemma D_ab_ok : describes 3 T_a T_b D_ab.
Proof.
  apply describes_distinct; [constructor; [do_modifies|constructor]| |apply (bool_decide_unpack _); vm_compute; exact I].
  intros f Hd. kase f [f_]; [covers (modifies f_ [Keep x_; Add y_])|same_off Hd].
Qed.
Lemma D_ac_ok : describes 3 T_a T_c D_ac.
Proof.
  apply describes_distinct; [constructor; [do_creates|constructor]| |apply (bool_decide_unpack _); vm_compute; exact I].
  intros f Hd. kase f [f_; g_]; [by destruct Hd|covers (creates g_ [Add z_])|same_off Hd].
Qed.
Lemma D_bd_ok : describes 3 T_b T_d D_bd.
Proof.
  apply describes_distinct; [constructor; [do_modifies|constructor; [do_creates|constructor]]| |apply (bool_decide_unpack _); vm_compute; exact I].
  intros f Hd. kase f [f_; g_]; [covers (modifies f_ [Add w_; Keep x_; Keep y_])|covers (creates g_ [Add z_])|same_off Hd].
Qed.
Lemma D_cd_ok : describes 3 T_c T_d D_cd.
Proof.
  apply describes_distinct; [constructor; [do_modifies|constructor]| |apply (bool_decide_unpack _); vm_compute; exact I].
  intros f Hd. kase f [f_; g_]; [covers (modifies f_ [Add w_; Keep x_; Add y_])|by destruct Hd|same_off Hd].
Qed.
Lemma D_de_ok : describes 3 T_d T_e D_de.
Proof.
  apply describes_distinct; [| |apply (bool_decide_unpack _); vm_compute; exact I].
  - constructor; [|constructor]. split_and!.
    + split_and!; [|done|done]. split_and!; [split; [done|lk]|split; [done|lk]|done|split; [done|lk]|done].
    + unfold short_lines. repeat constructor.
    + cbn. exists (txt [z_]), (txt [z_]). split_and!; lk || done.
  - intros f Hd. kase f [f_; g_; h_].
    + by destruct Hd.
    + split; [is_some_no|]. intros _. eexists. split; [apply elem_of_list_singleton; reflexivity|done].
    + covers (FPatch (FRename g_ h_ (B "100%") None) None FBNone).
    + same_off Hd.
Qed.

Lemma ex_known c : is_Some (ex_parents !! c) -> c = a1 \/ c = b2 \/ c = c3 \/ c = d4 \/ c = e5.
Proof.
  intros [v Hv]. unfold ex_parents in Hv. kase c [a1; b2; c3; d4; e5]; [tauto..|]. exfalso.
  rewrite !lookup_insert_ne, lookup_singleton_ne in Hv by congruence. done.
Qed.
Lemma ids_ok : Forall commit_id [a1; b2; c3; d4; e5].
Proof. repeat constructor; lk || done. Qed.

Lemma ex_valid : valid_history 3 ex_hist.
Proof.
  split.
  - intros x y Hp. unfold parent, parents in Hp. change (hi_parents ex_hist) with ex_parents in *.
    destruct (ex_parents !! x) as [l|] eqn:E; [|by apply elem_of_nil in Hp].
    destruct (ex_known x ltac:(by eexists)) as [->|[->|[->|[->| ->]]]]; vm_compute in E; injection E as <-;
      (repeat (apply elem_of_cons in Hp as [->|Hp]; [vm_compute; by eexists|]); by apply elem_of_nil in Hp).
  - intros c Hc. pose proof ids_ok as Hids. rewrite Forall_forall in Hids.
    assert (Hm : wf_meta (hi_meta ex_hist c)) by (split_and!; [by apply const_no_nl|by apply const_no_nl|constructor; [by apply const_no_nl|constructor]]).
    destruct (ex_known c Hc) as [->|[->|[->|[->| ->]]]].
    + split_and!; [apply Hids; set_solver|constructor|constructor|done|intros _; exact D_a_ok|].
      intros p Hp. by apply elem_of_nil in Hp.
    + split_and!; [apply Hids; set_solver|repeat constructor; lk || done|apply NoDup_singleton|done|done|].
      intros p Hp. change (p ∈ [a1]) in Hp. apply elem_of_list_singleton in Hp as ->. exact D_ab_ok.
    + split_and!; [apply Hids; set_solver|repeat constructor; lk || done|apply NoDup_singleton|done|done|].
      intros p Hp. change (p ∈ [a1]) in Hp. apply elem_of_list_singleton in Hp as ->. exact D_ac_ok.
    + split_and!; [apply Hids; set_solver|repeat constructor; lk || done|apply (bool_decide_unpack _); lk|done|done|].
      intros p Hp. change (p ∈ [b2; c3]) in Hp. apply elem_of_cons in Hp as [->|Hp]; [exact D_bd_ok|].
      apply elem_of_list_singleton in Hp as ->. exact D_cd_ok.
    + split_and!; [apply Hids; set_solver|repeat constructor; lk || done|apply NoDup_singleton|done|done|].
      intros p Hp. change (p ∈ [d4]) in Hp. apply elem_of_list_singleton in Hp as ->. exact D_de_ok.
Qed.

(** ** A run over it *)
Definition ex_slow (H : history) (c f : bytes) : outcome blame :=
  match hi_tree H c !! f with
  | Some e => Ret (Blame c (map (fun t => Line t c) (content_lines (en_content e))) false)
  | None => Err (B "no such path")
  end.
Lemma cr_refl a : same_up_to_cr a a.
Proof. exists a. split; exists 0; cbn; by rewrite app_nil_r. Qed.
Lemma ex_slow_right H : slow_blame_right H (ex_slow H).
Proof.
  intros c f e He. unfold ex_slow. rewrite He. eexists. split; [done|]. split; [done|]. cbn [b_lines]. split.
  - unfold texts. rewrite map_map. cbn. rewrite map_id. induction (content_lines _); constructor; [apply cr_refl|done].
  - intros l Hl. change (l ∈ (fun t => Line t c) <$> content_lines (en_content e)) in Hl. apply elem_of_list_fmap in Hl as (t & -> & _). apply rtc_refl.
Qed.
Definition id_orders : orders := Orders (fun l => l) (fun l => l) (fun l => l).
Definition rev_orders : orders := Orders (@rev _) (@rev _) (@rev _).
Lemma id_orders_any : any_orders id_orders.
Proof. split_and!; intros l; reflexivity. Qed.
Lemma rev_orders_any : any_orders rev_orders.
Proof. split_and!; intros l; cbn; by rewrite <-Permutation_rev. Qed.
Definition ex_env (H : history) (o : orders) : env :=
  Env (hi_parents H) (children_from_parents (map_to_list (hi_parents H))) (ex_slow H) (fun _ => o).
Lemma ex_env_right H o : any_orders o -> env_right H (ex_slow H) (ex_env H o).
Proof. intros Ho. split_and!; [done| |done|done]. by exists (map_to_list (hi_parents H)). Qed.

Definition ex_commits : list bytes := [a1; b2; c3; d4; e5].
Lemma ex_acyclic : acyclic (hi_parents ex_hist).
Proof. apply (acyclic_check rank_of). lk. Qed.
Ltac in_list := apply (bool_decide_unpack _); vm_compute; exact I.
Ltac parents_known := let p := fresh in let Hp := fresh in intros p Hp; vm_compute in Hp;
  repeat (apply elem_of_cons in Hp as [->|Hp]; [split; in_list|]); by apply elem_of_nil in Hp.
Lemma ex_parents_first : parents_first ex_hist [] ex_commits.
Proof. repeat (split; [in_list|split; [parents_known|]]). exact I. Qed.
Lemma not_prefixed (f : bytes) g : has_prefix deleted_prefix f = false -> f <> deleted_prefix ++ g.
Proof. intros H ->. vm_compute in H. done. Qed.
Lemma ex_all_known c : c ∈ ex_commits -> known ex_hist c.
Proof. intros Hc. repeat (apply elem_of_cons in Hc as [->|Hc]; [vm_compute; by eexists|]). by apply elem_of_nil in Hc. Qed.

(** All files of the trees have one mode, hence none is retyped. *)
Lemma same_mode_not_retyped (t t' : tree) f : (forall f e, t !! f = Some e -> en_mode e = B "100644") ->
  (forall f e, t' !! f = Some e -> en_mode e = B "100644") -> ~ retyped t t' f.
Proof. intros H H' (e & e' & He & He' & Hd). apply Hd. by rewrite (H _ _ He), (H' _ _ He'). Qed.
Definition modes_ok (t : tree) : bool := forallb (fun x : bytes * entry => bool_decide (en_mode x.2 = B "100644")) (map_to_list t).
Lemma modes_check t : modes_ok t = true -> forall f e, t !! f = Some e -> en_mode e = B "100644".
Proof.
  unfold modes_ok. rewrite forallb_forall. intros H f e He. specialize (H (f, e)). apply bool_decide_eq_true in H; [done|].
  apply elem_of_list_In. by apply elem_of_map_to_list.
Qed.
Definition names_ok (t : tree) : bool := forallb (fun x : bytes * entry => negb (has_prefix deleted_prefix x.1)) (map_to_list t).
Lemma names_check t : names_ok t = true -> forall f g, is_Some (t !! f) -> f <> deleted_prefix ++ g.
Proof.
  unfold names_ok. rewrite forallb_forall. intros H f g [e He]. apply not_prefixed. specialize (H (f, e)). apply negb_true_iff, H.
  apply elem_of_list_In. by apply elem_of_map_to_list.
Qed.
Lemma ex_plain c : c ∈ ex_commits -> plain_merge ex_hist c.
Proof.
  intros Hc. repeat (apply elem_of_cons in Hc as [->|Hc]; [intros Hm; try (vm_compute in Hm; lia)|]); [|by apply elem_of_nil in Hc].
  split; [apply names_check; lk|]. intros p f Hp. vm_compute in Hp. change (hi_tree ex_hist d4) with T_d.
  apply elem_of_cons in Hp as [->|Hp]; [apply same_mode_not_retyped; apply modes_check; lk|].
  apply elem_of_cons in Hp as [->|Hp]; [apply same_mode_not_retyped; apply modes_check; lk|]. by apply elem_of_nil in Hp.
Qed.
Lemma ex_log_short : short_lines (log_lines (git_log ex_hist ex_commits)).
Proof.
  unfold short_lines. rewrite Forall_forall. intros l Hl.
  assert (forallb (fun l : bytes => (N.of_nat (length l) <? 100000000)%N) (log_lines (git_log ex_hist ex_commits)) = true) as E by lk.
  rewrite forallb_forall in E. specialize (E l (proj1 (elem_of_list_In _ _) Hl)). by apply N.ltb_lt.
Qed.

(** ** The second history: the merge deletes g *)
Definition T_a' : tree := {[ f_ := txt [x_]; g_ := txt [z_] ]}.
Definition T_b' : tree := {[ f_ := txt [x_; y_]; g_ := txt [z_] ]}.
Definition T_c' : tree := {[ f_ := txt [x_]; g_ := txt [z_]; h_ := txt [w_] ]}.
Definition T_d' : tree := {[ f_ := txt [x_; y_]; h_ := txt [w_] ]}.
Definition removal : fpatch := FPatch (FDelete g_ (B "100644")) (Some (B "1111111..0000000")) (body [Del z_]).
Definition ex2_parents : graph := {[ a1 := []; b2 := [a1]; c3 := [a1]; d4 := [b2; c3] ]}.
Definition ex2_hist : history := History ex2_parents
  (pick ∅ [(a1, T_a'); (b2, T_b'); (c3, T_c'); (d4, T_d')])
  (fun c p => pick [] [(a1, [creates f_ [Add x_]; creates g_ [Add z_]]); (b2, D_ab); (c3, [creates h_ [Add w_]]);
      (d4, if decide (p = b2) then [removal; creates h_ [Add w_]] else [modifies f_ [Keep x_; Add y_]; removal])] c)
  ex_meta.

Lemma removal_ok t t' : t !! g_ = Some (txt [z_]) -> t' !! g_ = None -> patch_between 3 t t' removal.
Proof.
  intros Ht Ht'. split_and!.
  - split_and!; [split; [split; [done|lk]|split; [done|lk]]|lk|apply wf_text_body; [done|const_nl]].
  - unfold short_lines. repeat constructor.
  - cbn. exists (txt [z_]). split; [done|]. split; [by left|]. split; [apply context_top|]. by exists [].
Qed.
Ltac same_off' E := exfalso; apply E; unfold T_a', T_b', T_c', T_d'; rewrite ?lookup_insert_ne, ?lookup_singleton_ne by congruence; done.
Ltac dropped := split; [is_some_no|]; intros _; exists removal; split; [set_solver|done].
Lemma ex2_a : describes 3 ∅ T_a' [creates f_ [Add x_]; creates g_ [Add z_]].
Proof.
  apply describes_distinct; [constructor; [do_creates|constructor; [do_creates|constructor]]| |in_list].
  intros f Hd. kase f [f_; g_]; [covers (creates f_ [Add x_])|covers (creates g_ [Add z_])|same_off' Hd].
Qed.
Lemma ex2_ab : describes 3 T_a' T_b' D_ab.
Proof.
  apply describes_distinct; [constructor; [do_modifies|constructor]| |in_list].
  intros f Hd. kase f [f_; g_]; [covers (modifies f_ [Keep x_; Add y_])|by destruct Hd|same_off' Hd].
Qed.
Lemma ex2_ac : describes 3 T_a' T_c' [creates h_ [Add w_]].
Proof.
  apply describes_distinct; [constructor; [do_creates|constructor]| |in_list].
  intros f Hd. kase f [f_; g_; h_]; [by destruct Hd|by destruct Hd|covers (creates h_ [Add w_])|same_off' Hd].
Qed.
Lemma ex2_bd : describes 3 T_b' T_d' [removal; creates h_ [Add w_]].
Proof.
  apply describes_distinct; [constructor; [by apply removal_ok|constructor; [do_creates|constructor]]| |in_list].
  intros f Hd. kase f [f_; g_; h_]; [by destruct Hd|dropped|covers (creates h_ [Add w_])|same_off' Hd].
Qed.
Lemma ex2_cd : describes 3 T_c' T_d' [modifies f_ [Keep x_; Add y_]; removal].
Proof.
  apply describes_distinct; [constructor; [do_modifies|constructor; [by apply removal_ok|constructor]]| |in_list].
  intros f Hd. kase f [f_; g_; h_]; [covers (modifies f_ [Keep x_; Add y_])|dropped|by destruct Hd|same_off' Hd].
Qed.
Lemma ex2_known c : is_Some (ex2_parents !! c) -> c = a1 \/ c = b2 \/ c = c3 \/ c = d4.
Proof.
  intros [v Hv]. unfold ex2_parents in Hv. kase c [a1; b2; c3; d4]; [tauto..|]. exfalso.
  rewrite !lookup_insert_ne, lookup_singleton_ne in Hv by congruence. done.
Qed.
Lemma ex2_valid : valid_history 3 ex2_hist.
Proof.
  split; [apply complete_check; lk|].
  intros c Hc. pose proof ids_ok as Hids. rewrite Forall_forall in Hids.
  assert (Hm : wf_meta (hi_meta ex2_hist c)) by (split_and!; [by apply const_no_nl|by apply const_no_nl|constructor; [by apply const_no_nl|constructor]]).
  destruct (ex2_known c Hc) as [->|[->|[->| ->]]].
  - split_and!; [apply Hids; set_solver|constructor|constructor|done|intros _; exact ex2_a|].
    intros p Hp. by apply elem_of_nil in Hp.
  - split_and!; [apply Hids; set_solver|repeat constructor; lk || done|apply NoDup_singleton|done|done|].
    intros p Hp. change (p ∈ [a1]) in Hp. apply elem_of_list_singleton in Hp as ->. exact ex2_ab.
  - split_and!; [apply Hids; set_solver|repeat constructor; lk || done|apply NoDup_singleton|done|done|].
    intros p Hp. change (p ∈ [a1]) in Hp. apply elem_of_list_singleton in Hp as ->. exact ex2_ac.
  - split_and!; [apply Hids; set_solver|repeat constructor; lk || done|apply (bool_decide_unpack _); lk|done|done|].
    intros p Hp. change (p ∈ [b2; c3]) in Hp. apply elem_of_cons in Hp as [->|Hp]; [exact ex2_bd|].
    apply elem_of_list_singleton in Hp as ->. exact ex2_cd.
Qed.
Definition ex2_commits : list bytes := [a1; b2; c3; d4].
Lemma ex2_acyclic : acyclic (hi_parents ex2_hist).
Proof. apply (acyclic_check rank_of). lk. Qed.
Lemma ex2_parents_first : parents_first ex2_hist [] ex2_commits.
Proof. repeat (split; [in_list|split; [parents_known|]]). exact I. Qed.
Lemma ex2_plain c : c ∈ ex2_commits -> known ex2_hist c /\ plain_merge ex2_hist c.
Proof.
  intros Hc. split; [repeat (apply elem_of_cons in Hc as [->|Hc]; [vm_compute; by eexists|]); by apply elem_of_nil in Hc|].
  repeat (apply elem_of_cons in Hc as [->|Hc]; [intros Hm; try (vm_compute in Hm; lia)|]); [|by apply elem_of_nil in Hc].
  split; [apply names_check; lk|]. intros p f Hp. vm_compute in Hp. change (hi_tree ex2_hist d4) with T_d'.
  apply elem_of_cons in Hp as [->|Hp]; [apply same_mode_not_retyped; apply modes_check; lk|].
  apply elem_of_cons in Hp as [->|Hp]; [apply same_mode_not_retyped; apply modes_check; lk|]. by apply elem_of_nil in Hp.
Qed.

(** ** The third history: a binary file, changed on one side of a merge *)
Definition bin (b : bytes) : entry := Entry (B "100644") (CBinary b).
Definition T_a3 : tree := {[ f_ := bin x_ ]}.
Definition T_b3 : tree := {[ f_ := bin y_ ]}.
Definition T_c3 : tree := {[ f_ := bin x_; g_ := txt [z_] ]}.
Definition T_d3 : tree := {[ f_ := bin y_; g_ := txt [z_] ]}.
Definition bin_create : fpatch := FPatch (FCreate f_ (B "100644")) (Some (B "0000000..1111111")) FBBinary.
Definition bin_change : fpatch := FPatch (FModify f_ None) (Some (B "1111111..2222222 100644")) FBBinary.
Definition ex3_hist : history := History ex2_parents
  (pick ∅ [(a1, T_a3); (b2, T_b3); (c3, T_c3); (d4, T_d3)])
  (fun c p => pick [] [(a1, [bin_create]); (b2, [bin_change]); (c3, [creates g_ [Add z_]]);
      (d4, if decide (p = b2) then [creates g_ [Add z_]] else [bin_change])] c)
  ex_meta.
Lemma bin_create_ok t : t !! f_ = Some (bin x_) -> patch_between 3 ∅ t bin_create.
Proof.
  intros Ht. split_and!.
  - split_and!; [split; [split; [done|lk]|split; [done|lk]]|lk|done].
  - unfold short_lines. repeat constructor.
  - cbn. exists (bin x_). split; [done|]. split; [by left|]. right. by eexists.
Qed.
Lemma bin_change_ok t t' : t !! f_ = Some (bin x_) -> t' !! f_ = Some (bin y_) -> patch_between 3 t t' bin_change.
Proof.
  intros Ht Ht'. split_and!.
  - split_and!; [split; [split; [done|lk]|done]|lk|done].
  - unfold short_lines. repeat constructor.
  - cbn. exists (bin x_), (bin y_). split; [done|]. split; [done|]. split; [done|]. split; [|left; by eexists].
    intros (e & e' & E & E' & Hd). change (t !! f_ = Some e) in E. change (t' !! f_ = Some e') in E'. rewrite Ht in E. rewrite Ht' in E'. injection E as <-. injection E' as <-. done.
Qed.
Ltac same_off3 E := exfalso; apply E; unfold T_a3, T_b3, T_c3, T_d3; rewrite ?lookup_insert_ne, ?lookup_singleton_ne by congruence; done.
Lemma ex3_a : describes 3 ∅ T_a3 [bin_create].
Proof.
  apply describes_distinct; [constructor; [by apply bin_create_ok|constructor]| |in_list].
  intros f Hd. kase f [f_]; [covers bin_create|same_off3 Hd].
Qed.
Lemma ex3_ab : describes 3 T_a3 T_b3 [bin_change].
Proof.
  apply describes_distinct; [constructor; [by apply bin_change_ok|constructor]| |in_list].
  intros f Hd. kase f [f_]; [covers bin_change|same_off3 Hd].
Qed.
Lemma ex3_ac : describes 3 T_a3 T_c3 [creates g_ [Add z_]].
Proof.
  apply describes_distinct; [constructor; [do_creates|constructor]| |in_list].
  intros f Hd. kase f [f_; g_]; [by destruct Hd|covers (creates g_ [Add z_])|same_off3 Hd].
Qed.
Lemma ex3_bd : describes 3 T_b3 T_d3 [creates g_ [Add z_]].
Proof.
  apply describes_distinct; [constructor; [do_creates|constructor]| |in_list].
  intros f Hd. kase f [f_; g_]; [by destruct Hd|covers (creates g_ [Add z_])|same_off3 Hd].
Qed.
Lemma ex3_cd : describes 3 T_c3 T_d3 [bin_change].
Proof.
  apply describes_distinct; [constructor; [by apply bin_change_ok|constructor]| |in_list].
  intros f Hd. kase f [f_; g_]; [covers bin_change|by destruct Hd|same_off3 Hd].
Qed.
Lemma ex3_valid : valid_history 3 ex3_hist.
Proof.
  split; [apply complete_check; lk|].
  intros c Hc. pose proof ids_ok as Hids. rewrite Forall_forall in Hids.
  assert (Hm : wf_meta (hi_meta ex3_hist c)) by (split_and!; [by apply const_no_nl|by apply const_no_nl|constructor; [by apply const_no_nl|constructor]]).
  destruct (ex2_known c Hc) as [->|[->|[->| ->]]].
  - split_and!; [apply Hids; set_solver|constructor|constructor|done|intros _; exact ex3_a|].
    intros p Hp. by apply elem_of_nil in Hp.
  - split_and!; [apply Hids; set_solver|repeat constructor; lk || done|apply NoDup_singleton|done|done|].
    intros p Hp. change (p ∈ [a1]) in Hp. apply elem_of_list_singleton in Hp as ->. exact ex3_ab.
  - split_and!; [apply Hids; set_solver|repeat constructor; lk || done|apply NoDup_singleton|done|done|].
    intros p Hp. change (p ∈ [a1]) in Hp. apply elem_of_list_singleton in Hp as ->. exact ex3_ac.
  - split_and!; [apply Hids; set_solver|repeat constructor; lk || done|apply (bool_decide_unpack _); lk|done|done|].
    intros p Hp. change (p ∈ [b2; c3]) in Hp. apply elem_of_cons in Hp as [->|Hp]; [exact ex3_bd|].
    apply elem_of_list_singleton in Hp as ->. exact ex3_cd.
Qed.
Lemma ex3_acyclic : acyclic (hi_parents ex3_hist).
Proof. apply (acyclic_check rank_of). lk. Qed.
Lemma ex3_parents_first : parents_first ex3_hist [] ex2_commits.
Proof. repeat (split; [in_list|split; [parents_known|]]). exact I. Qed.
Lemma ex3_plain c : c ∈ ex2_commits -> known ex3_hist c /\ plain_merge ex3_hist c.
Proof.
  intros Hc. split; [repeat (apply elem_of_cons in Hc as [->|Hc]; [vm_compute; by eexists|]); by apply elem_of_nil in Hc|].
  repeat (apply elem_of_cons in Hc as [->|Hc]; [intros Hm; try (vm_compute in Hm; lia)|]); [|by apply elem_of_nil in Hc].
  split; [apply names_check; lk|]. intros p f Hp. vm_compute in Hp. change (hi_tree ex3_hist d4) with T_d3.
  apply elem_of_cons in Hp as [->|Hp]; [apply same_mode_not_retyped; apply modes_check; lk|].
  apply elem_of_cons in Hp as [->|Hp]; [apply same_mode_not_retyped; apply modes_check; lk|]. by apply elem_of_nil in Hp.
Qed.
