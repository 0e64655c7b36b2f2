(** * Processing one commit with at most one parent *)
From Verif.Model Require Import Base GoStrings IncBlame LogParser ParentsGraph Process.
From Verif.Spec Require Import Text UnifiedDiff Attribution GitLog CommitGraph History Processing.
From Verif.Proofs Require Import TextLemmas ParsePatch ApplyPatch IncBlameMore MergeBlame LogParse BlameOf.
From Coq Require Import Lia.

(** ** One change text, parsed and applied *)
Lemma attributed_keep R c (tail : list bytes) (ls : list line) : length ls = length tail -> attributed R c (map Keep tail) ls ls.
Proof.
  revert ls. induction tail as [|t tail IH]; intros [|l ls] E; cbn in *; try lia; constructor. apply IH. lia.
Qed.

Lemma change_parsed p : wf_patch p -> short_lines (patch_lines p) ->
  exists d, parse (change_text p) = Ret d /\
    d_prev d = name_before (fp_kind p) /\ d_path d = name_after (fp_kind p) /\ d_binary d = is_binary_body (fp_body p) /\
    (fp_body p = FBNone -> d_hunks d = []) /\
    (forall hs, fp_body p = FBText hs -> (forall q m, fp_kind p <> FDelete q m) -> d_hunks d <> []).
Proof.
  intros Hw Hs. unfold change_text. rewrite strip_patch_lines by done.
  pose proof (parse_render (strip_patch p) (strip_wf _ Hw) (strip_short _ Hw Hs)) as E.
  change (unlines (patch_lines (strip_patch p))) with (render_patch (strip_patch p)). rewrite E.
  eexists. split; [reflexivity|]. cbn [d_prev d_path d_binary d_hunks strip_patch fp_kind fp_body].
  split_and!; try done.
  - by destruct (fp_body p).
  - intros ->. cbn. by destruct (fp_kind p).
  - intros hs E2 Hnd. rewrite E2. cbn. destruct Hw as (_ & _ & Hb). rewrite E2 in Hb. cbn in Hb. destruct Hb as [Hb _].
    destruct hs as [|h hs]; [done|]. destruct (fp_kind p); cbn; try done. by edestruct Hnd.
Qed.

Lemma apply_no_hunks file d c : b_binary file = false -> d_binary d = false -> d_hunks d = [] ->
  apply file d c = Ret (Blame c (b_lines file) false).
Proof.
  intros E1 E2 E3. unfold apply. rewrite E1, E2, E3. unfold apply_core. cbn [omapM obind sort_hunks].
  unfold apply_sorted. cbn [ofold obind ap_idx]. unfold copy_range. cbn [ap_idx ap_res].
  assert ((0 <=? Z.of_nat 0)%Z && (Z.of_nat 0 <=? Z.of_nat (length (b_lines file)))%Z &&
          (Z.of_nat (length (b_lines file)) <=? Z.of_nat (length (b_lines file)))%Z = true) as ->.
  { rewrite !andb_true_iff, !Z.leb_le. lia. }
  cbn [obind ap_res app]. rewrite Nat2Z.id. change (Z.to_nat (Z.of_nat 0)) with 0. rewrite Nat.sub_0_r, drop_0.
  rewrite firstn_all. do 2 f_equal. induction (b_lines file); cbn; [done|]. by f_equal.
Qed.

(** Applying the parsed change to a blame of the right length. *)
Lemma change_apply k p hs tail file c d :
  wf_patch p -> short_lines (patch_lines p) -> parse (change_text p) = Ret d -> 2 <= k ->
  text_body p hs -> (fp_body p = FBText hs -> has_context k 0 true hs) -> (forall q m, fp_kind p <> FDelete q m) ->
  b_binary file = false -> length (b_lines file) = length (old_text (script hs tail)) ->
  exists ls, apply file d c = Ret (Blame c ls false) /\ attributed cr_trimmed c (script hs tail) (b_lines file) ls.
Proof.
  intros Hw Hs Hd Hk Htb Hc Hnd Hbin Hl. destruct Htb as [E|[E ->]].
  - destruct (change_applies p hs tail file c k Hw Hs E Hnd Hk (Hc E) Hbin Hl) as (d' & b & E1 & E2 & E3 & E4 & E5).
    rewrite Hd in E1. injection E1 as <-. destruct b as [bc bl bb]. cbn in *. subst. by exists bl.
  - destruct (change_parsed p Hw Hs) as (d' & E1 & _ & _ & E4 & E5 & _). rewrite Hd in E1. injection E1 as <-.
    exists (b_lines file). split.
    + apply apply_no_hunks; [done| |by apply E5]. rewrite E4, E. done.
    + rewrite script_nil in *. apply attributed_keep. by rewrite old_text_keep in Hl.
Qed.

(** ** Storing *)
Lemma set_file_other r c f b x : x <> c -> set_file r c f b !! x = r !! x.
Proof. intros. unfold set_file. by rewrite lookup_insert_ne. Qed.
Lemma set_file_same r c f b fs : r !! c = Some fs -> set_file r c f b !! c = Some (<[f := b]> fs).
Proof. intros E. unfold set_file. rewrite lookup_insert, E. done. Qed.

Section regular.
  Context (k : nat) (H : history) (slow : bytes -> bytes -> outcome blame).
  Context (HV : valid_history k H) (Hk : 2 <= k) (HS : slow_blame_right H slow).

  Lemma deletes_name p f t t' : patch_between k t t' p -> deletes p f ->
    name_after (fp_kind p) = [] /\ name_before (fp_kind p) = f /\ f <> [].
  Proof.
    intros (Hw & _) Hd. unfold deletes in Hd. destruct Hw as (Hwk & _). destruct (fp_kind p); try done. subst. cbn in *.
    split_and!; try done. destruct Hwk as [[? _] _]. done.
  Qed.
  Lemma writes_or_deletes p t t' : patch_between k t t' p -> (exists f, writes p f) \/ (exists f, deletes p f).
  Proof.
    intros (Hw & _). destruct Hw as (Hwk & _). unfold writes, deletes. destruct (fp_kind p); cbn in *; unfold plain_path in *; naive_solver.
  Qed.
  Lemma writes_not_delete p f : writes p f -> forall q m, fp_kind p <> FDelete q m.
  Proof. intros [Hne E] q m E2. rewrite E2 in E. cbn in E. by subst. Qed.
  Lemma body_cases p : fp_body p = FBBinary \/ exists hs, text_body p hs.
  Proof. unfold text_body. destruct (fp_body p); eauto. Qed.
  Lemma body_context o n p hs : body_between k o n (fp_body p) -> fp_body p = FBText hs -> has_context k 0 true hs.
  Proof. intros Hb E. rewrite E in Hb. by destruct Hb. Qed.

  (** One patch that writes [f], against a parent (or nothing) whose state is right. *)
  Lemma change_writes c p f (r : repo) res :
    known H c -> length (hparents H c) <= 1 -> c ∉ hparents H c -> (forall x, x ∈ hparents H c -> good H slow r x) ->
    p ∈ patches_of H c -> writes p f ->
    exists b, regular_change slow c (hparents H c) (r, res) (change_text p) = Ret (set_file r c f b, <[f := b]> res) /\
      blame_of H slow c f b.
  Proof.
    intros Hc Hl Hnc Hgood Hp Hw.
    assert (exists t, describes k t (hi_tree H c) (patches_of H c) /\
      (hparents H c = [] /\ t = ∅ \/ exists x, hparents H c = [x] /\ t = hi_tree H x /\ patches_of H c = hi_diff H c x)) as (t & Hd & Ht).
    { unfold patches_of. destruct (hparents H c) as [|x [|]] eqn:E; cbn in Hl; [| |lia].
      - exists ∅. split; [by eapply describes_root|by left].
      - exists (hi_tree H x). split; [by apply describes_single|]. right. by exists x. }
    destruct (writes_new k _ _ _ p f Hd Hp Hw) as (e & o & He & Hbo & Ho1 & Ho2).
    destruct (proj1 (Forall_forall _ _) (proj1 Hd) _ Hp) as (Hwf & Hsh & _).
    destruct (change_parsed p Hwf Hsh) as (d & Hd1 & Hd2 & Hd3 & Hd4 & Hd5 & Hd6).
    pose proof (writes_not_delete _ _ Hw) as Hnd. destruct Hw as [Hne Hname].
    unfold regular_change. rewrite Hd1. cbn [obind]. rewrite Hd2, Hd3, Hd4, Hname.
    rewrite (bool_decide_eq_false_2 (f = [])) by done.
    destruct (body_cases p) as [Eb|[hs Htb]].
    { rewrite Eb. cbn [is_binary_body]. eexists. split; [done|]. apply (bo_binary H slow c f p); done. }
    assert (is_binary_body (fp_body p) = false) as -> by (destruct Htb as [-> |[-> _]]; done).
    destruct (decide (name_before (fp_kind p) = [])) as [En|En].
    - (* creation *)
      rewrite En. case_bool_decide; [done|]. cbn [andb obind]. case_bool_decide; [|done]. cbn [obind].
      rewrite (Ho1 En) in Hbo.
      assert (length (b_lines blame_zero) = length (old_text (script hs []))) as Hlen.
      { cbn. destruct Htb as [E|[E ->]]; [|done]. rewrite E in Hbo. destruct Hbo as (_ & tail & Hold & _). injection Hold as Hold.
        symmetry in Hold. rewrite old_text_script in Hold. apply app_eq_nil in Hold as [-> _]. done. }
      destruct (change_apply k p hs [] blame_zero c d Hwf Hsh Hd1 Hk Htb (body_context _ _ _ _ Hbo) Hnd eq_refl Hlen) as (ls & -> & Ha).
      cbn [obind]. eexists. split; [done|]. by eapply (bo_created H slow c f p).
    - destruct Ht as [[_ ->]|(x & Hx & -> & Hpx)]; [destruct (Ho2 En) as (e0 & He0 & _); by rewrite lookup_empty in He0|].
      destruct (Ho2 En) as (e0 & He0 & ->). rewrite Hpx in Hp.
      destruct (Hgood x) as (fsx & Hfx & Hgx); [rewrite Hx; by constructor|].
      destruct (Hgx (name_before (fp_kind p))) as (b0 & Hb0 & Hbo0); [by eexists|].
      assert (Hmust : get_file_must r x (name_before (fp_kind p)) = Ret b0).
      { unfold get_file_must, get_commit_must. rewrite Hfx. cbn [obind]. by rewrite Hb0. }
      assert (Hopt : get_file_optional r x (name_before (fp_kind p)) = Ret (Some b0)).
      { unfold get_file_optional, get_commit_must. rewrite Hfx. cbn [obind]. by rewrite Hb0. }
      rewrite Hx. case_bool_decide; [|done]. cbn [andb].
      match goal with |- context [bool_decide (name_before (fp_kind p) = ?n)] =>
        rewrite (bool_decide_eq_false_2 (name_before (fp_kind p) = n)) by done end.
      rewrite Hmust, Hopt.
      assert (Hafter : exists b, (do pb <- Ret (Some b0);
          do bl <- match pb with Some b => if b_binary b then slow c f else apply b d c | None => apply blame_zero d c end;
          Ret (set_file r c f bl, <[f:=bl]> res)) = Ret (set_file r c f b, <[f := b]> res) /\ blame_of H slow c f b).
      { cbn [obind]. destruct (b_binary b0) eqn:Ebin.
        - destruct (HS c f e He) as (b' & Hsl & _). rewrite Hsl. cbn [obind]. exists b'. split; [done|].
          by eapply (bo_rebuilt H slow c x f p hs b0 b').
        - assert (exists tail, length (b_lines b0) = length (old_text (script hs tail)) /\
                   Forall2 same_up_to_cr (texts (b_lines b0)) (old_text (script hs tail))) as (tail & Hlen & Htx).
          { destruct Htb as [E|[E ->]].
            - rewrite E in Hbo. destruct Hbo as (_ & tail & Hold & _). destruct (en_content e0) as [ls0|] eqn:Ec; [|done].
              injection Hold as ->. exists tail.
              assert (Forall2 same_up_to_cr (texts (b_lines b0)) (old_text (script hs tail))) as HF.
              { pose proof (blame_text k H slow HV HS x _ _ Hbo0) as Hbt.
                specialize (Hbt (parent_known k H HV c x ltac:(rewrite Hx; by constructor)) e0 He0 Ebin). by rewrite Ec in Hbt. }
              split; [|done]. apply Forall2_length in HF. unfold texts in HF. by rewrite map_length in HF.
            - exists (texts (b_lines b0)). rewrite script_nil, old_text_keep. split; [unfold texts; by rewrite map_length|].
              clear. induction (texts (b_lines b0)); constructor; [apply same_up_to_cr_refl|done]. }
          destruct (change_apply k p hs tail b0 c d Hwf Hsh Hd1 Hk Htb (body_context _ _ _ _ Hbo) Hnd Ebin Hlen) as (ls & -> & Ha).
          cbn [obind]. eexists. split; [done|]. by eapply (bo_changed H slow c x f p hs tail b0). }
      case_bool_decide as Eren; [|exact Hafter].
      destruct (d_hunks d) eqn:Eh; cbn [obind]; [|exact Hafter].
      destruct (b_binary b0) eqn:Ebin; [|cbn [obind] in Hafter; rewrite Ebin in Hafter; exact Hafter].
      eexists. split; [done|]. eapply (bo_moved_binary H slow c x f p b0); try done.
      destruct Htb as [E|[E _]]; [|done]. by destruct (Hd6 hs E Hnd).
  Qed.

  Lemma change_deletes c p f (r : repo) res t t' : patch_between k t t' p -> deletes p f ->
    exists b, regular_change slow c (hparents H c) (r, res) (change_text p) = Ret (r, <[f := b]> res) /\
      b_lines b = [] /\ b_commit b = c.
  Proof.
    intros Hp Hd. destruct (deletes_name _ _ _ _ Hp Hd) as (E1 & E2 & _). destruct Hp as (Hwf & Hsh & _).
    destruct (change_parsed p Hwf Hsh) as (d & Hd1 & Hd2 & Hd3 & Hd4 & _).
    unfold regular_change. rewrite Hd1. cbn [obind]. rewrite Hd2, Hd3, Hd4, E1, E2.
    case_bool_decide; [|done]. destruct (is_binary_body (fp_body p)); by eexists.
  Qed.

  (** Invariant after the patches [ps1] of commit [c]. *)
  Record rinv (c : bytes) (r0 : repo) (ps1 : list fpatch) (st : repo * files) : Prop := RInv {
    ri_other : forall x, x <> c -> st.1 !! x = r0 !! x;
    ri_mine : exists fs, st.1 !! c = Some fs /\
      (forall f, (exists p, p ∈ ps1 /\ writes p f) -> exists b, fs !! f = Some b /\ st.2 !! f = Some b /\ blame_of H slow c f b) /\
      (forall f, is_Some (fs !! f) -> exists p, p ∈ ps1 /\ writes p f);
    ri_dom : forall f, is_Some (st.2 !! f) <-> touched ps1 f;
    ri_deleted : forall f, touched ps1 f -> (forall p, p ∈ ps1 -> ~ writes p f) ->
      exists b, st.2 !! f = Some b /\ b_lines b = [] /\ b_commit b = c }.

  Lemma touched_snoc ps p f : touched (ps ++ [p]) f <-> touched ps f \/ writes p f \/ deletes p f.
  Proof.
    unfold touched. split.
    - intros (q & Hq & Hd). apply elem_of_app in Hq as [Hq|Hq%elem_of_list_singleton]; [left; eauto|subst; by right].
    - intros [(q & Hq & Hd)|Hd]; [exists q|exists p]; (split; [|done]); apply elem_of_app; [by left|right; by constructor].
  Qed.

  Lemma regular_fold c (r0 : repo) :
    known H c -> length (hparents H c) <= 1 -> c ∉ hparents H c -> (forall x, x ∈ hparents H c -> good H slow r0 x) ->
    forall ps2 ps1 st, ps1 ++ ps2 = patches_of H c -> rinv c r0 ps1 st ->
    exists st', ofold (regular_change slow c (hparents H c)) st (map change_text ps2) = Ret st' /\ rinv c r0 (ps1 ++ ps2) st'.
  Proof.
    intros Hc Hl Hnc Hgood ps2. induction ps2 as [|p ps2 IH]; intros ps1 st Hps Hinv.
    - exists st. rewrite app_nil_r. done.
    - assert (exists t, describes k t (hi_tree H c) (patches_of H c)) as (t & Hd).
      { unfold patches_of. destruct (hparents H c) as [|x [|]] eqn:E; cbn in Hl; [| |lia].
        - exists ∅. by eapply describes_root.
        - exists (hi_tree H x). by apply describes_single. }
      assert (Hin : p ∈ patches_of H c) by (rewrite <-Hps; set_solver).
      assert (Hpi : patches_of H c !! length ps1 = Some p).
      { rewrite <-Hps. rewrite lookup_app_r by done. by rewrite Nat.sub_diag. }
      destruct st as [r res]. destruct Hinv as [Io (fs & If & Iw & Ir) Id Ix]. cbn [fst snd] in *.
      pose proof (proj1 (Forall_forall _ _) (proj1 Hd) _ Hin) as Hpb.
      assert (Hgood' : forall x, x ∈ hparents H c -> good H slow r x).
      { intros x Hx. destruct (Hgood x Hx) as (fsx & E & G). exists fsx. split; [|done]. rewrite Io; [done|]. by intros ->. }
      cbn [map ofold]. destruct (writes_or_deletes _ _ _ Hpb) as [[f Hw]|[f Hdel]].
      + destruct (change_writes c p f r res Hc Hl Hnc Hgood' Hin Hw) as (b & -> & Hb). cbn [obind].
        destruct (IH (ps1 ++ [p]) (set_file r c f b, <[f := b]> res)) as (st' & E & Hst'); [by rewrite <-app_assoc| |].
        * assert (Hwf : forall g, writes p g -> g = f) by (intros g [_ <-]; by destruct Hw as [_ <-]).
          split; cbn [fst snd].
          -- intros x Hx. rewrite set_file_other by done. by apply Io.
          -- exists (<[f := b]> fs). split; [by apply set_file_same|]. split.
             ++ intros g (q & Hq & Hqg). destruct (decide (g = f)) as [->|Hgf].
                { exists b. rewrite !lookup_insert. done. }
                rewrite !lookup_insert_ne by done. apply Iw. exists q. apply elem_of_app in Hq as [Hq|Hq%elem_of_list_singleton]; [done|].
                subst q. by destruct Hgf; apply Hwf.
             ++ intros g Hg. destruct (decide (g = f)) as [->|Hgf]; [exists p; split; [set_solver|done]|].
                rewrite lookup_insert_ne in Hg by done. destruct (Ir g Hg) as (q & Hq & ?). exists q. split; [set_solver|done].
          -- intros g. rewrite touched_snoc, <-Id. destruct (decide (g = f)) as [->|Hgf].
             ++ rewrite lookup_insert. split; [intros _; right; by left|eauto].
             ++ rewrite lookup_insert_ne by done. split; [by left|]. intros [?|[Hwg|Hdg]]; [done|by destruct Hgf; apply Hwf|].
                destruct (deletes_name _ _ _ _ Hpb Hdg) as (E1 & _). destruct Hw as [Hne Hw]. congruence.
          -- intros g Ht Hno. destruct (decide (g = f)) as [->|Hgf]; [by destruct (Hno p); [set_solver|]|].
             rewrite lookup_insert_ne by done. apply Ix; [|intros q Hq; apply Hno; set_solver].
             apply touched_snoc in Ht as [?|[Hwg|Hdg]]; [done|by destruct Hgf; apply Hwf|].
             destruct (deletes_name _ _ _ _ Hpb Hdg) as (E1 & _). destruct Hw as [Hne Hw]. congruence.
        * exists st'. rewrite <-app_assoc in Hst'. done.
      + destruct (change_deletes c p f r res _ _ Hpb Hdel) as (b & -> & Hb1 & Hb2). cbn [obind].
        assert (Hnow : forall q, q ∈ ps1 -> ~ writes q f).
        { intros q Hq Hqf. apply elem_of_list_lookup in Hq as [i Hi]. pose proof (lookup_lt_Some _ _ _ Hi) as Hlt.
          assert (patches_of H c !! i = Some q) as Hi' by (rewrite <-Hps; by rewrite lookup_app_l).
          destruct Hd as (_ & _ & _ & Hord). specialize (Hord _ _ _ _ f Hi' Hpi Hqf Hdel). lia. }
        assert (Hpf : forall g, deletes p g -> g = f).
        { intros g Hg. destruct (deletes_name _ _ _ _ Hpb Hg) as (_ & <- & _). by destruct (deletes_name _ _ _ _ Hpb Hdel) as (_ & -> & _). }
        assert (Hnw : forall g, ~ writes p g).
        { intros g [Hne Hg]. destruct (deletes_name _ _ _ _ Hpb Hdel) as (E & _). rewrite E in Hg. congruence. }
        destruct (IH (ps1 ++ [p]) (r, <[f := b]> res)) as (st' & E & Hst'); [by rewrite <-app_assoc| |].
        * split; cbn [fst snd].
          -- done.
          -- exists fs. split; [done|]. split.
             ++ intros g (q & Hq & Hqg). apply elem_of_app in Hq as [Hq|Hq%elem_of_list_singleton]; [|subst q; by destruct (Hnw g)].
                destruct (decide (g = f)) as [->|Hgf]; [by destruct (Hnow q)|].
                destruct (Iw g) as (b' & ? & ? & ?); [by exists q|]. exists b'. by rewrite lookup_insert_ne.
             ++ intros g Hg. destruct (Ir g Hg) as (q & Hq & ?). exists q. split; [set_solver|done].
          -- intros g. rewrite touched_snoc, <-Id. destruct (decide (g = f)) as [->|Hgf].
             ++ rewrite lookup_insert. split; [intros _; right; by right|eauto].
             ++ rewrite lookup_insert_ne by done. split; [by left|]. intros [?|[Hwg|Hdg]]; [done|by destruct (Hnw g)|].
                by destruct Hgf; apply Hpf.
          -- intros g Ht Hno. destruct (decide (g = f)) as [->|Hgf]; [exists b; by rewrite lookup_insert|].
             rewrite lookup_insert_ne by done. apply Ix; [|intros q Hq; apply Hno; set_solver].
             apply touched_snoc in Ht as [?|[Hwg|Hdg]]; [done|by destruct (Hnw g)|]. by destruct Hgf; apply Hpf.
        * exists st'. rewrite <-app_assoc in Hst'. done.
  Qed.

  (** The stored files: exactly those written here, or inherited from the parent without being touched. *)
  Definition stored_right (c : bytes) (ps : list fpatch) (inherited : files) (fs : files) (res : files) : Prop :=
    (forall f, (exists p, p ∈ ps /\ writes p f) -> fs !! f = res !! f) /\
    (forall f, (forall p, p ∈ ps -> ~ writes p f) -> touched ps f -> fs !! f = None) /\
    (forall f, ~ touched ps f -> fs !! f = inherited !! f).

  Lemma regular_ok c (r : repo) lc :
    known H c -> length (hparents H c) <= 1 -> c ∉ hparents H c -> (forall x, x ∈ hparents H c -> good H slow r x) ->
    lc_hash lc = c -> lc_changes lc = map change_text (patches_of H c) ->
    exists r' res inherited fs, process_regular slow r (hparents H c) lc = Ret (r', res) /\
      (forall x, x <> c -> r' !! x = r !! x) /\ good H slow r' c /\
      r' !! c = Some fs /\ result_right H slow c (patches_of H c) res /\
      (match hparents H c with x :: _ => r !! x = Some inherited | [] => inherited = ∅ end) /\
      stored_right c (patches_of H c) inherited fs (r_files res).
  Proof.
    intros Hc Hl Hnc Hgood Eh Ech. unfold process_regular. rewrite Eh, Ech.
    destruct (regular_fold c r Hc Hl Hnc Hgood (patches_of H c) [] (add_commit r c, ∅)) as ([r1 res] & E & Hinv); [done| |].
    { split; cbn [fst snd].
      - intros x Hx. unfold add_commit. by rewrite lookup_insert_ne.
      - exists ∅. unfold add_commit. rewrite lookup_insert. split; [done|]. split.
        + intros f (p & Hp & _). by apply elem_of_nil in Hp.
        + intros f Hf. rewrite lookup_empty in Hf. by apply is_Some_None in Hf.
      - intros f. rewrite lookup_empty. split; [by intros ?%is_Some_None|]. intros (p & Hp & _). by apply elem_of_nil in Hp.
      - intros f (p & Hp & _). by apply elem_of_nil in Hp. }
    cbn [app] in Hinv. destruct Hinv as [Io (fs & If & Iw & Ir) Id Ix]. cbn [fst snd] in *.
    assert (Hres : result_right H slow c (patches_of H c) (Result c res)).
    { split_and!; cbn; try done.
      - intros f b Hf Hw. destruct (Iw f Hw) as (b' & _ & E' & ?). rewrite Hf in E'. by injection E' as <-.
      - intros f b Hf Hw. destruct (Ix f) as (b' & E' & ? & ?); [apply Id; by eexists|done|]. rewrite Hf in E'. by injection E' as <-. }
    destruct (hparents H c) as [|x [|]] eqn:Hp; cbn in Hl; [| |lia].
    - rewrite E. cbn [obind]. exists r1, (Result c res), ∅, fs. unfold stored_right. split_and!; try done.
      + exists fs. split; [done|]. intros f [e He].
        assert (exists p, p ∈ patches_of H c /\ writes p f) as Hw.
        { unfold patches_of. rewrite Hp. pose proof (describes_root k H HV c Hc Hp) as (_ & Hcov & _).
          destruct (Hcov f) as [A _]; [rewrite lookup_empty, He; done|]. apply A. by eexists. }
        destruct (Iw f Hw) as (b & ? & _ & ?). eauto.
      + intros f Hw. cbn [r_files]. destruct (Iw f Hw) as (b & -> & -> & _). done.
      + intros f Hno _. destruct (fs !! f) eqn:Ef; [|done]. destruct (Ir f) as (p & Hpp & ?); [by eexists|]. by destruct (Hno p).
      + intros f Hnt. rewrite lookup_empty. destruct (fs !! f) eqn:Ef; [|done]. destruct (Ir f) as (p & Hpp & ?); [by eexists|].
        destruct Hnt. exists p. auto.
    - rewrite E. cbn [obind]. destruct (Hgood x) as (fsx & Hfx & Hgx); [by constructor|].
      assert (Hxc : x <> c) by (intros ->; apply Hnc; by constructor).
      unfold get_commit_must. rewrite (Io x Hxc), Hfx. cbn [obind].
      unfold copy_unchanged. rewrite If. change (default ∅ (Some fs)) with fs.
      match goal with |- context [<[c := ?m]> r1] => set (fs' := m) end.
      assert (Hlook : forall f, fs' !! f = match res !! f with Some _ => fs !! f | None => fsx !! f end).
      { intros f. unfold fs'. destruct (res !! f) as [b|] eqn:Ef.
        - rewrite lookup_union_r; [done|]. apply map_filter_lookup_None. right. intros b' _. cbn. rewrite Ef. done.
        - assert (fs !! f = None) as Hnone.
          { destruct (fs !! f) eqn:Eff; [|done]. destruct (Ir f) as (p & Hpp & Hw); [by eexists|].
            assert (is_Some (res !! f)) as Hs by (apply Id; exists p; auto). rewrite Ef in Hs. by apply is_Some_None in Hs. }
          rewrite lookup_union, Hnone. rewrite (right_id_L None _).
          destruct (fsx !! f) as [b|] eqn:Ex.
          + apply map_filter_lookup_Some. done.
          + apply map_filter_lookup_None. by left. }
      exists (<[c := fs']> r1), (Result c res), fsx, fs'. unfold stored_right. split_and!; try done.
      + intros y Hy. rewrite lookup_insert_ne by done. by apply Io.
      + exists fs'. rewrite lookup_insert. split; [done|]. intros f Hf.
        rewrite Hlook. destruct (res !! f) as [b|] eqn:Ef.
        * destruct (proj1 (Id f) ltac:(by eexists)) as (p & Hpp & [Hw|Hdel]).
          { destruct (Iw f ltac:(by exists p)) as (b' & ? & _ & ?). eauto. }
          (* deleted, but in the tree: re-created *)
          pose proof (describes_single k H HV c x Hp) as Hd.
          assert (exists q, q ∈ patches_of H c /\ writes q f) as Hw.
          { unfold patches_of in *. rewrite Hp in *. destruct Hd as (Hfa & Hcov & _).
            destruct (proj1 (Forall_forall _ _) Hfa _ Hpp) as (_ & _ & Hkind). unfold deletes in Hdel.
            destruct (fp_kind p) as [| |g m|]; try done. subst g. destruct Hkind as (e & He & [Hn|(e1 & e2 & H1 & H2 & Hne)] & _).
            - rewrite Hn in Hf. by apply is_Some_None in Hf.
            - destruct (Hcov f) as [A _]; [|by apply A]. rewrite H1, H2. intros [= ->]. done. }
          destruct (Iw f Hw) as (b' & ? & _ & ?). eauto.
        * assert (Hnt : ~ touched (patches_of H c) f).
          { intros Ht%Id. rewrite Ef in Ht. by apply is_Some_None in Ht. }
          assert (Hnw : forall q, q ∈ hi_diff H c x -> ~ writes q f).
          { intros q Hq Hw. apply Hnt. unfold patches_of. rewrite Hp. exists q. auto. }
          pose proof (unwritten_same k _ _ _ f (describes_single k H HV c x Hp) Hf Hnw) as Hsame.
          destruct (Hgx f) as (b & Hb & Hbo); [by rewrite Hsame|]. exists b. split; [done|]. by eapply (bo_same H slow c x f b).
      + by rewrite lookup_insert.
      + intros f Hw. rewrite Hlook. cbn. destruct (Iw f Hw) as (b & -> & -> & _). done.
      + intros f Hno Ht. rewrite Hlook. destruct (proj2 (Id f) Ht) as [b ->].
        destruct (fs !! f) eqn:Ef; [|done]. destruct (Ir f) as (p & Hpp & ?); [by eexists|]. by destruct (Hno p).
      + intros f Hnt. rewrite Hlook. destruct (res !! f) eqn:Ef; [|done]. destruct Hnt. apply Id. by eexists.
  Qed.
End regular.
