(** * Consequences of the specification of blame over a history *)
From Verif.Model Require Import Base GoStrings IncBlame ParentsGraph.
From Verif.Spec Require Import Text UnifiedDiff Attribution GitLog CommitGraph History.
From Verif.Proofs Require Import TextLemmas ApplyPatch IncBlameMore MergeBlame.
From Coq Require Import Lia.

Lemma old_text_app a b : old_text (a ++ b) = old_text a ++ old_text b.
Proof. induction a as [|[]]; cbn; congruence. Qed.
Lemma new_text_app a b : new_text (a ++ b) = new_text a ++ new_text b.
Proof. induction a as [|[]]; cbn; congruence. Qed.
Lemma old_text_keep l : old_text (map Keep l) = l.
Proof. induction l; cbn; congruence. Qed.
Lemma new_text_keep l : new_text (map Keep l) = l.
Proof. induction l; cbn; congruence. Qed.
Lemma old_text_script hs tail : old_text (script hs tail) = old_text (script hs []) ++ tail.
Proof. unfold script. rewrite !old_text_app, !old_text_keep. cbn. by rewrite app_nil_r. Qed.
Lemma script_nil tail : script [] tail = map Keep tail.
Proof. done. Qed.

Lemma writes_name p f : writes p f -> name_after (fp_kind p) = f /\ f <> [].
Proof. intros [? <-]. done. Qed.

Section facts.
  Context (k : nat) (H : history) (slow : bytes -> bytes -> outcome blame).
  Context (HV : valid_history k H).

  Definition known (c : bytes) : Prop := is_Some (hi_parents H !! c).
  Lemma parent_known c p : p ∈ hparents H c -> known p.
  Proof. intros Hp. by apply (proj1 HV c). Qed.
  Lemma child_known c p : p ∈ hparents H c -> known c.
  Proof. unfold hparents, parents, known. destruct (hi_parents H !! c); [eauto|set_solver]. Qed.

  Lemma describes_parent c p : p ∈ hparents H c -> describes k (hi_tree H p) (hi_tree H c) (hi_diff H c p).
  Proof. intros Hp. destruct (proj2 HV c (child_known _ _ Hp)) as (_&_&_&_&_&D). by apply D. Qed.
  Lemma describes_single c p : hparents H c = [p] -> describes k (hi_tree H p) (hi_tree H c) (hi_diff H c p).
  Proof. intros E. apply describes_parent. rewrite E. by constructor. Qed.
  Lemma describes_root c : known c -> hparents H c = [] -> describes k ∅ (hi_tree H c) (hi_diff H c []).
  Proof. intros Hc E. destruct (proj2 HV c Hc) as (_&_&_&_&D&_). by apply D. Qed.

  (** The new side of a patch that writes [f]. *)
  Lemma writes_new t t' ps q f : describes k t t' ps -> q ∈ ps -> writes q f ->
    exists e o, t' !! f = Some e /\ body_between k o (Some (en_content e)) (fp_body q) /\
      (name_before (fp_kind q) = [] -> o = None) /\
      (name_before (fp_kind q) <> [] -> exists e0, t !! name_before (fp_kind q) = Some e0 /\ o = Some (en_content e0)).
  Proof.
    intros (Hps & _) Hq [Hne Hw]. rewrite Forall_forall in Hps. destruct (Hps _ Hq) as (Hwf & _ & Hk).
    destruct Hwf as (Hwk & _). destruct (fp_kind q) as [g m|g m|g m|g g' s m]; cbn in *; try (by destruct Hne).
    - subst f. destruct Hk as (e & e' & ? & ? & ? & ? & ?). exists e', (Some (en_content e)). split_and!; try done; intros; eauto.
    - subst f. destruct Hk as (e' & ? & ? & ?). exists e', None. done.
    - subst f. destruct Hk as (e & e' & ? & ? & ? & ? & ?). exists e', (Some (en_content e)). split_and!; try done; [|eauto].
      intros E. destruct Hwk as ([? _] & _). done.
  Qed.
  Lemma unwritten_same t t' ps f : describes k t t' ps -> is_Some (t' !! f) -> (forall q, q ∈ ps -> ~ writes q f) ->
    t !! f = t' !! f.
  Proof.
    intros (_ & Hc & _) Hs Hn. destruct (decide (t !! f = t' !! f)) as [|Hd]; [done|].
    destruct (Hc f Hd) as [Hw _]. destruct (Hw Hs) as (q & Hq & Hqf). by destruct (Hn q Hq).
  Qed.

  (** ** Blame that is not marked binary holds the lines of the file. *)
  Lemma blame_text : slow_blame_right H slow -> forall c f b, blame_of H slow c f b -> known c ->
    forall e, hi_tree H c !! f = Some e -> b_binary b = false ->
    Forall2 same_up_to_cr (texts (b_lines b)) (content_lines (en_content e)).
  Proof.
    intros HS c f b Hb.
    induction Hb as [c p f b Hp Hs Hn _ IH|c f q hs ls Hl Hq Hw Hnb Htb Ha|c p f q hs tail b ls Hp Hq Hw Hnb Htb Hb IH Hbin Htx Ha
      |c f q Hl Hq Hw Hbody|c p f q b Hp Hq Hw Hnb Hnf Hbody Hb IH Hbin|c p f q hs b b' Hp Hq Hw Hnb Htb Hb IH Hbin Hsl
      |c p f b Hl Hp Hs Ht Hb IH|c f eM txt mps ls Hl Ht Htxt Hlen Hm1 Hm2 Hm3 IH Htx Hml|c f p q Hl Hp Hq Hw Hbody|c f p q b Hl Hp Hq Hw Hnb Hb IH Hbin];
      intros Hc ef Hf Hnbin; cbn in Hnbin; try done; try (exfalso; congruence).
    - apply (IH (parent_known c p ltac:(rewrite Hp; by constructor)) ef); [|done].
      rewrite <-Hf. apply (unwritten_same _ _ _ f (describes_single c p Hp)); [by rewrite Hf|done].
    - assert (exists t, describes k t (hi_tree H c) (patches_of H c)) as [t Hd].
      { unfold patches_of. destruct (hparents H c) as [|p [|]] eqn:E; cbn in Hl; [|by exists (hi_tree H p); apply describes_single|lia].
        exists ∅. by apply describes_root. }
      destruct (writes_new _ _ _ q f Hd Hq Hw) as (e & o & He & Hbo & Ho & _). rewrite Hf in He. injection He as <-.
      rewrite (Ho Hnb) in Hbo. cbn [en_content] in Hbo. cbn [b_lines].
      destruct Htb as [E|[E ->]]; rewrite E in Hbo; cbn in Hbo.
      + destruct Hbo as (_ & tail & Hold & Hnew). injection Hold as Hold.
        symmetry in Hold. rewrite old_text_script in Hold. apply app_eq_nil in Hold as [Hold ->].
        destruct (en_content ef) as [ls0|]; [|done]. injection Hnew as ->. cbn [content_lines].
        eapply attributed_texts_cr; [exact Ha|]. rewrite Hold. constructor.
      + rewrite Hbo. inversion Ha; subst. constructor.
    - destruct (writes_new _ _ _ q f (describes_single c p Hp) Hq Hw) as (e & o & He & Hbo & _ & Ho). rewrite Hf in He. injection He as <-.
      destruct (Ho Hnb) as (e0 & He0 & ->). cbn [en_content b_lines] in *.
      pose proof (attributed_texts_cr _ _ _ _ Ha Htx) as Hres.
      destruct Htb as [E|[E ->]]; rewrite E in Hbo; cbn in Hbo.
      + destruct Hbo as (_ & tail' & Hold & Hnew).
        destruct (en_content e0) as [ls1|] eqn:Ec; [|done]. cbn in Hold. injection Hold as Hold.
        destruct (en_content ef) as [ls0|]; [|done]. injection Hnew as Hnew. cbn [content_lines].
        assert (Hb1 : Forall2 same_up_to_cr (texts (b_lines b)) ls1).
        { apply (IH (parent_known c p ltac:(rewrite Hp; by constructor)) e0) in He0; [|done]. by rewrite Ec in He0. }
        subst ls0.
        (* tail and tail' have the same length; the kept tail is the same lines *)
        assert (Ha' : attributed cr_trimmed c (script hs tail') (b_lines b) ls).
        { apply Forall2_length in Htx. apply Forall2_length in Hb1. rewrite Htx, Hold in Hb1.
          rewrite (old_text_script hs tail), (old_text_script hs tail'), !app_length in Hb1.
          assert (Hlt : length tail = length tail') by lia. clear -Ha Hlt. unfold script in *.
          revert Ha. generalize (b_lines b) as old. intros old. revert old ls.
          induction (concat (map hunk_script hs)) as [|e es IHe]; intros old ls Ha; cbn in *.
          - revert tail' Hlt old ls Ha. induction tail as [|x tail IHt]; intros [|y tail'] Hlt old ls Ha; cbn in *; try lia; [done|].
            inversion Ha; subst. constructor. apply IHt; [lia|done].
          - inversion Ha; subst; constructor; auto. }
        eapply attributed_texts_cr; [exact Ha'|]. by rewrite <-Hold.
      + rewrite <-Hbo.
        pose proof (IH (parent_known c p ltac:(rewrite Hp; by constructor)) e0 He0 Hbin) as Hb1.
        enough (b_lines b = ls) as <- by done.
        clear -Ha. revert Ha. generalize (b_lines b). revert ls. induction tail as [|x tail IH]; intros ls old Ha; inversion Ha; subst; [done|].
        f_equal. by apply IH.
    - destruct (HS c f _ Hf) as (b1 & E & Hb1 & Hb2 & _). rewrite Hsl in E. injection E as <-. done.
    - apply (IH (parent_known c p Hp) ef); [|done]. by rewrite Ht.
    - rewrite Ht in Hf. injection Hf as ->. by subst txt.
  Qed.

  (** ** Only commits the file's commit descends from are named. *)
  Lemma attributed_in R c es old new l : attributed R c es old new -> l ∈ new -> l ∈ old \/ l_commit l = c.
  Proof.
    induction 1 as [|t x es old new _ IH|t x es old new _ IH|t t' es old new _ _ IH]; intros Hl.
    - by apply elem_of_nil in Hl.
    - apply elem_of_cons in Hl as [->|Hl]; [left; by constructor|]. destruct (IH Hl); [left; by constructor|by right].
    - destruct (IH Hl); [left; by constructor|by right].
    - apply elem_of_cons in Hl as [->|Hl]; [by right|]. by apply IH.
  Qed.
  Lemma step_reaches c p x : p ∈ hparents H c -> reaches (hi_parents H) p x -> reaches (hi_parents H) c x.
  Proof. intros Hp Hr. eapply rtc_l; [|exact Hr]. exact Hp. Qed.
  Lemma single_in c p : hparents H c = [p] -> p ∈ hparents H c.
  Proof. intros ->. by constructor. Qed.

  Lemma blame_lines : slow_blame_right H slow -> forall c f b, blame_of H slow c f b -> known c -> is_Some (hi_tree H c !! f) ->
    forall l, l ∈ b_lines b -> reaches (hi_parents H) c (l_commit l).
  Proof.
    intros HS c f b Hb.
    induction Hb as [c p f b Hp Hs Hn _ IH|c f q hs ls Hl Hq Hw Hnb Htb Ha|c p f q hs tail b ls Hp Hq Hw Hnb Htb Hb IH Hbin Htx Ha
      |c f q Hl Hq Hw Hbody|c p f q b Hp Hq Hw Hnb Hnf Hbody Hb IH Hbin|c p f q hs b b' Hp Hq Hw Hnb Htb Hb IH Hbin Hsl
      |c p f b Hl Hp Hs Ht Hb IH|c f eM txt mps ls Hl Ht Htxt Hlen Hm1 Hm2 Hm3 IH Htx Hml|c f p q Hl Hp Hq Hw Hbody|c f p q b Hl Hp Hq Hw Hnb Hb IH Hbin];
      intros Hc Hf l Hin; cbn in Hin.
    - eapply step_reaches; [by apply single_in|]. apply IH; [by eapply parent_known, single_in| |done].
      by rewrite (unwritten_same _ _ _ f (describes_single c p Hp)).
    - destruct (attributed_in _ _ _ _ _ _ Ha Hin) as [E| ->]; [by apply elem_of_nil in E|apply rtc_refl].
    - destruct (attributed_in _ _ _ _ _ _ Ha Hin) as [E| ->]; [|apply rtc_refl].
      eapply step_reaches; [by apply single_in|]. apply IH; [by eapply parent_known, single_in| |done].
      destruct (writes_new _ _ _ q f (describes_single c p Hp) Hq Hw) as (e & o & He & Hbo & _ & Ho).
      destruct (Ho Hnb) as (e0 & ? & _). by eexists.
    - by apply elem_of_nil in Hin.
    - eapply step_reaches; [by apply single_in|]. apply IH; [by eapply parent_known, single_in| |done].
      destruct (writes_new _ _ _ q f (describes_single c p Hp) Hq Hw) as (e & o & He & Hbo & _ & Ho).
      destruct (Ho Hnb) as (e0 & ? & _). by eexists.
    - destruct Hf as [e He]. destruct (HS c f _ He) as (b1 & E & Hb1 & _ & Hb2). rewrite Hsl in E. injection E as <-. by apply Hb2.
    - eapply step_reaches; [done|]. apply IH; [by eapply parent_known| |done]. by rewrite Ht.
    - apply elem_of_list_lookup in Hin as [n Hn]. destruct (Hml n l Hn) as [(j & m & o & Hj & Hk & _ & ->)|[_ ->]]; [|apply rtc_refl].
      assert (is_Some (hparents H c !! j)) as [p Hp].
      { apply lookup_lt_is_Some_2. rewrite <-Hlen. by eapply lookup_lt_Some. }
      assert (Hin' : p ∈ hparents H c) by by eapply elem_of_list_lookup_2.
      destruct (Hm1 j p m Hp Hj) as (Hq & Hw & _).
      eapply step_reaches; [exact Hin'|].
      pose proof (origins_in _ _ _ _ Hk) as Ho.
      destruct (decide (name_before (fp_kind (mp_patch m)) = [])) as [E|E].
      + rewrite (Hm2 j p m Hp Hj E) in Ho. by apply elem_of_nil in Ho.
      + apply (IH j p m Hp Hj E); [by eapply parent_known| |done].
        destruct (writes_new _ _ _ _ f (describes_parent c p Hin') Hq Hw) as (e & o' & He & Hbo & _ & Ho').
        destruct (Ho' E) as (e0 & ? & _). by eexists.
    - by apply elem_of_nil in Hin.
    - by apply elem_of_nil in Hin.
  Qed.

  (** ** In a history of text files nothing is marked binary. *)
  Lemma blame_not_binary : slow_blame_right H slow -> (forall c f e, hi_tree H c !! f = Some e -> exists ls, en_content e = CText ls) ->
    forall c f b, blame_of H slow c f b -> known c -> b_binary b = false.
  Proof.
    intros HS HT c f b Hb.
    assert (Hbody : forall t t' ps q f, (forall f e, t !! f = Some e -> exists ls, en_content e = CText ls) ->
       (forall f e, t' !! f = Some e -> exists ls, en_content e = CText ls) ->
       describes k t t' ps -> q ∈ ps -> writes q f -> fp_body q = FBBinary -> False).
    { intros t t' ps q g Ht Ht' Hd Hq Hw E. destruct (writes_new _ _ _ q g Hd Hq Hw) as (e & o & He & Hbo & Ho1 & Ho2).
      rewrite E in Hbo. cbn in Hbo. destruct (decide (name_before (fp_kind q) = [])) as [En|En].
      - rewrite (Ho1 En) in Hbo. destruct (Ht' _ _ He) as [ls Els]. rewrite Els in Hbo. naive_solver.
      - destruct (Ho2 En) as (e0 & He0 & ->). destruct (Ht' _ _ He) as [ls Els]. destruct (Ht _ _ He0) as [ls0 Els0].
        rewrite Els, Els0 in Hbo. naive_solver. }
    induction Hb as [c p f b Hp Hs Hn _ IH|c f q hs ls Hl Hq Hw Hnb Htb Ha|c p f q hs tail b ls Hp Hq Hw Hnb Htb Hb IH Hbin Htx Ha
      |c f q Hl Hq Hw Hbin|c p f q b Hp Hq Hw Hnb Hnf Hbin Hb IH Hbin'|c p f q hs b b' Hp Hq Hw Hnb Htb Hb IH Hbin Hsl
      |c p f b Hl Hp Hs Ht Hb IH|c f eM txt mps ls Hl Ht Htxt Hlen Hm1 Hm2 Hm3 IH Htx Hml|c f p q Hl Hp Hq Hw Hbin|c f p q b Hl Hp Hq Hw Hnb Hb IH Hbin];
      intros Hc; try done.
    - by eapply IH, parent_known, single_in.
    - exfalso. unfold patches_of in Hq. destruct (hparents H c) as [|p [|]] eqn:E; cbn in Hl; [| |lia].
      + eapply (Hbody ∅ (hi_tree H c)); [|apply HT|by apply describes_root|done|done|done]. intros g e He. by rewrite lookup_empty in He.
      + eapply (Hbody (hi_tree H p) (hi_tree H c)); [apply HT|apply HT|by apply describes_single|done|done|done].
    - rewrite IH in Hbin'; [done|]. by eapply parent_known, single_in.
    - rewrite IH in Hbin; [done|]. by eapply parent_known, single_in.
    - by eapply IH, parent_known.
    - exfalso. eapply (Hbody (hi_tree H p) (hi_tree H c)); [apply HT|apply HT|by apply describes_parent|done|done|done].
    - rewrite IH in Hbin; [done|]. by eapply parent_known.
  Qed.
End facts.
