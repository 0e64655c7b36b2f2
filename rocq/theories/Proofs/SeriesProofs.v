(** * Lemmas for C84: a series of calls *)
From Verif.Model Require Import Base GoStrings IncBlame LogParser ParentsGraph Process Msgp Checkpoint CheckpointFS CommitMeta FileInfo CodeInfo Net Pipeline GitBlame LogArgs Api.
From Verif.Spec Require Import Text UnifiedDiff Attribution GitLog CommitGraph History Processing Checkpoint Resuming Records MetaLog EndToEnd Delivery Selection GitAnswers Continuing Series.
From Verif.Proofs Require Import TextLemmas ParentsGraphProofs SelectionProofs CheckpointProofs CheckpointFiles ProcessLoop ResumeTop ApiProofs IncrementalProofs.
From Verif.Props Require Import ApiProps IncrementalProps.
From Coq Require Import Lia.

(** ** The last of the listed commits *)
Lemma reach_index g cs x y i j : (forall a b, reaches g x a -> reaches g a b -> b ∈ cs -> a ∈ cs) -> children_last g cs ->
  reaches g x y -> cs !! i = Some x -> cs !! j = Some y -> NoDup cs -> j <= i.
Proof.
  intros Hcl Hlast Hr. revert i. induction Hr as [x|x z y Hp Hr IH]; intros i Hi Hj Hnd.
  - by rewrite (NoDup_lookup cs i j x Hnd Hi Hj).
  - assert (Hz : z ∈ cs) by (apply (Hcl z y); [by apply rtc_once|exact Hr|by eapply elem_of_list_lookup_2]).
    apply elem_of_list_lookup in Hz as [m Hm]. pose proof (Hlast i m x z Hi Hm Hp).
    assert (j <= m); [|lia]. apply IH; try done. intros a b Ha. apply Hcl. by eapply rtc_l.
Qed.
Lemma head_last g cs (S : bytes -> Prop) h v : lists_exactly cs S -> children_last g cs -> (forall x, S x -> reaches g h x) ->
  (forall x y, reaches g h x -> reaches g x y -> S y -> S x) -> last cs = Some v -> v = h.
Proof.
  intros [Hnd Hcs] Hlast Hr Hup Hv. assert (Hvc : v ∈ cs) by (apply last_Some in Hv as (l & ->); apply elem_of_app; right; left).
  assert (Hhc : h ∈ cs) by (apply Hcs; apply (Hup h v); [done|by apply Hr, Hcs|by apply Hcs]).
  rewrite last_lookup in Hv. apply elem_of_list_lookup in Hhc as [i Hi].
  assert (pred (length cs) <= i) as Hle.
  { apply (reach_index g cs h v i (pred (length cs))); try done; [|by apply Hr, Hcs]. intros a b Ha Hab Hb. apply Hcs. apply (Hup a b); [done|done|by apply Hcs]. }
  pose proof (lookup_lt_Some _ _ _ Hi). assert (i = pred (length cs)) as -> by lia. rewrite Hv in Hi. by injection Hi.
Qed.

Lemma grown_reaches H1 H x y : complete (hi_parents H1) -> extends H1 H -> is_Some (hi_parents H1 !! x) -> reaches (hi_parents H1) x y <-> reaches (hi_parents H) x y.
Proof.
  intros HC HE Hx. split; intros Hr; (induction Hr as [x|x z y Hp _ IH]; [reflexivity|]).
  - apply rtc_l with z; [|apply IH; by eapply HC]. unfold parent, parents in *. destruct (HE x Hx) as (-> & _). done.
  - assert (Hp1 : parent (hi_parents H1) x z) by (unfold parent, parents in *; destruct (HE x Hx) as (<- & _); done).
    apply rtc_l with z; [exact Hp1|apply IH; by eapply HC].
Qed.

Lemma acyclic_antisym g : acyclic g -> forall x y, reaches g x y -> reaches g y x -> x = y.
Proof.
  intros Ha x y Hxy Hyx. apply rtc_tc in Hxy as [->|Hxy]; [done|]. exfalso. apply (Ha x). unfold ancestor. by eapply tc_rtc_r.
Qed.

Section Series.
Context {T L : Type} (zt : T) (parse_date : bytes -> option T) (cl : classifiers L) (count : bytes -> bytes -> bytes -> list (Z * line_type) * totals).
Context (skip : bytes -> pres unit) (hash : bytes -> N) (k : nat) (Hdet : detector_works cl).
Notation call := (@call T).
Notation series := (series zt parse_date cl count skip hash k).

(** What holds after the calls, if the caller has received the records of the commits [D]. *)
Record inv (c : call) (r : repo) (v : bytes) (D : list bytes) : Prop := Inv {
  iv_usable : usable k parse_date (k_repo c) (k_hist c) (k_about c);
  iv_right : checkpoint_right (k_hist c) (fallback (k_git c)) r;
  iv_last : v ∈ D;
  iv_known : forall x, x ∈ D -> is_Some (hi_parents (k_hist c) !! x);
  iv_closed : forall x q, x ∈ D -> q ∈ hparents (k_hist c) x -> q ∈ D;
  iv_stored : forall x, x ∈ D -> is_Some (r !! x);
  iv_head : forall x, reaches (g_parents (k_repo c)) (g_head (k_repo c)) x -> x ∈ D }.
(** In a series that moves forward. *)
Definition once (c : call) (v : bytes) (D : list bytes) : Prop :=
  NoDup D /\ v = g_head (k_repo c) /\ forall x, x ∈ D -> reaches (g_parents (k_repo c)) (g_head (k_repo c)) x.

Lemma closed_reaches (H : history) (D : list bytes) x y : (forall x q, x ∈ D -> q ∈ hparents H x -> q ∈ D) -> reaches (hi_parents H) x y -> x ∈ D -> y ∈ D.
Proof. intros Hc Hr. induction Hr as [x|x z y Hp _ IH]; [done|]. intros Hx. apply IH. by eapply Hc. Qed.

Lemma first_inv c rs r v : first_call parse_date k c -> returned_ok zt parse_date cl count skip c rs (Some (r, v)) ->
  exists cs, call_right zt (c, rs) cs /\ inv c r v cs /\ (ro_all (k_opts c) = false -> once c v cs).
Proof.
  intros ((HU & HA & [f0 Hf0] & [f1 Hf1] & Hord & Hgo & Hmo) & Hfrom & (l & Hlen & Hl)) (s & conf & Es & Hc & Hfin & Hret & <-).
  destruct (C77_code_call_partial zt parse_date cl count (k_orders c) (k_graph_order c) (k_merge_orders c) skip (k_disk c) (k_write_err c) (k_git c) (k_tmp c) (k_dir c) (k_opts c) k (k_repo c) (k_hist c) (k_about c)
    f0 f1 HU HA Hfrom Hf0 Hf1 Hord Hgo Hmo Hdet) as (s' & Es' & cs & xs & w & Hcs & Hlast & HF & Hleft & _ & _ & Hrun).
  unfold k_setup in Es. rewrite Es in Es'. injection Es' as <-. destruct (Hrun conf Hc) as (_ & _ & _ & Hf). destruct (Hf Hfin) as (_ & Hrec & _ & Hret'). rewrite Hret in Hret'. injection Hret' as _ <-.
  destruct Hleft as (Hv & Hright & _ & _ & Hall). pose proof (us_same _ _ _ _ _ HU) as Hsame.
  assert (Hvc : v ∈ cs) by (apply last_Some in Hv as (l' & ->); apply elem_of_app; right; left).
  exists cs. split; [|split].
  - split; [apply Hcs|]. split; [exact Hlast|]. exists xs. cbn [fst snd]. split; [|exact Hrec]. eapply Forall2_impl; [exact HF|]. intros x y. apply records_mono. intros a b Ha. by left.
  - constructor; try done.
    + intros x Hx. apply (selected_in parse_date (k_opts c) k (k_repo c) (k_hist c) (k_about c) HU). by apply Hcs.
    + intros x q Hx Hq. apply Hcs. apply (selected_closed parse_date (k_opts c) k (k_repo c) (k_hist c) (k_about c) HU x q); [by apply Hcs|exact Hq].
    + intros x Hx. apply (Hall l Hlen); [|by left]. intros a q Ha Hq. apply (Hl a q); [by apply Hcs|]. by rewrite <- Hsame.
    + intros x Hx. apply Hcs. exists (g_head (k_repo c)). split; [by left|exact Hx].
  - intros Hna. assert (Hsel : forall x, selected (k_repo c) (ro_all (k_opts c)) x <-> reaches (g_parents (k_repo c)) (g_head (k_repo c)) x).
    { intros x. rewrite Hna. split; [intros (y & [->|[? _]] & Hr); [exact Hr|discriminate]|]. intros Hr. exists (g_head (k_repo c)). split; [by left|exact Hr]. }
    split; [apply Hcs|]. split; [|intros x Hx; by apply Hsel, Hcs].
    apply (head_last (g_parents (k_repo c)) cs (selected (k_repo c) (ro_all (k_opts c)))); try done; [intros x; by rewrite Hsel|].
    intros x y Hx _ _. by apply Hsel.
Qed.

Lemma next_works c0 r0 v0 D c p : inv c0 r0 v0 D -> next_call parse_date hash k c0 r0 v0 c p -> exists s, k_setup zt parse_date c = Ret s /\
  exists cs xs w, lists_exactly cs (since (k_repo c) p) /\ children_last (g_parents (k_repo c)) cs /\
    Forall2 (commit_records_right (k_hist c) (fallback (k_git c)) (line_since zt (map (k_about c) cs))) cs xs /\
    leaves_checkpoint (k_hist c) (fallback (k_git c)) (with_files r0) cs w /\ delivers (k_act zt cl count skip c s) (k_write_err c) (concat xs) w.
Proof.
  intros [IU IR IL IK IC IS IH] ((HU & HA & [f0 Hf0] & [f1 Hf1] & Hord & Hgo & Hmo) & HG & Hsaved & <- & Hname & Hst & Hfew & Hne).
  pose proof (us_same _ _ _ _ _ HU) as Hsame. pose proof HG as [HE _].
  apply (C82_next_call_partial zt parse_date cl count (k_orders c) (k_graph_order c) (k_merge_orders c) skip (k_disk c) (k_write_err c) (k_git c) (k_tmp c) (k_dir c) (k_opts c) k (k_repo c) (k_hist c) (k_about c)
    f0 f1 hash (k_hist c0) (k_git c0) r0 p); try done.
  - apply (us_valid _ _ _ _ _ IU).
  - by apply IK.
  - intros x q Hx Hq Hpq.
    assert (HD : forall x q, x ∈ D -> q ∈ hparents (k_hist c) x -> q ∈ D) by (intros a b Ha Hb; apply (IC a b Ha); by rewrite <- (ext_parents _ _ HE a (IK a Ha))).
    assert (Hp : p ∈ D).
    { destruct Hst as (f & Hf & Hp). rewrite Hname in Hf. injection Hf as <-. destruct (ro_nonincl (k_opts c)); [by rewrite Hp|]. destruct Hp as [ps Hp]. apply (HD (ro_from (k_opts c)) p IL).
      unfold hparents, parents. rewrite Hsame, Hp. cbn. left. }
    assert (Hqd : q ∈ D) by (apply (closed_reaches (k_hist c) D p q HD); [by rewrite Hsame|exact Hp]).
    split; [by apply IS|]. apply Hne. by apply (ext_known _ _ HE), IK.
Qed.

Lemma next_inv c0 r0 v0 D c p rs w : inv c0 r0 v0 D -> next_call parse_date hash k c0 r0 v0 c p -> returned_ok zt parse_date cl count skip c rs w ->
  exists cs, call_right zt (c, rs) cs /\ inv c (default (r0, v0) w).1 (default (r0, v0) w).2 (D ++ cs) /\
    (ro_nonincl (k_opts c) = true -> reaches (g_parents (k_repo c)) (g_head (k_repo c)) (g_head (k_repo c0)) -> once c0 v0 D -> once c (default (r0, v0) w).2 (D ++ cs)).
Proof.
  intros HI HN (s & conf & Es & Hc & Hfin & Hret & <-).
  destruct (next_works c0 r0 v0 D c p HI HN) as (s' & Es' & cs & xs & w' & Hcs & Hlast & HF & Hleft & _ & _ & Hrun).
  rewrite Es in Es'. injection Es' as <-. destruct (Hrun conf Hc) as (_ & _ & _ & Hf). destruct (Hf Hfin) as (_ & Hrec & _ & Hret'). rewrite Hret in Hret'. injection Hret' as _ <-.
  destruct HI as [IU IR IL IK IC IS IH]. destruct HN as ((HU & HA & _) & [HE Hbl] & Hsaved & Hfrom & Hname & Hst & (l & Hlen & Hl) & Hne).
  pose proof (us_same _ _ _ _ _ HU) as Hsame.
  assert (HD : forall x q, x ∈ D -> q ∈ hparents (k_hist c) x -> q ∈ D) by (intros a b Ha Hb; apply (IC a b Ha); by rewrite <- (ext_parents _ _ HE a (IK a Ha))).
  assert (HK : forall x, x ∈ D -> is_Some (hi_parents (k_hist c) !! x)) by (intros x Hx; by apply (ext_known _ _ HE), IK).
  assert (Hp : p ∈ D).
  { destruct Hst as (f & Hf' & Hp). rewrite Hfrom, Hname in Hf'. injection Hf' as <-. destruct (ro_nonincl (k_opts c)); [by rewrite Hp|]. destruct Hp as [ps Hp]. apply (HD v0 p IL).
    unfold hparents, parents. rewrite Hsame, Hp. cbn. left. }
  assert (Hpd : forall q, reaches (g_parents (k_repo c)) p q -> q ∈ D) by (intros q Hq; apply (closed_reaches (k_hist c) D p q HD); [by rewrite Hsame|exact Hp]).
  assert (Hcov : forall x, reaches (g_parents (k_repo c)) (g_head (k_repo c)) x -> x ∈ D ++ cs).
  { intros x Hx. apply elem_of_app. destruct (decide (x ∈ D)) as [|Hn]; [by left|]. right. apply Hcs. split; [exact Hx|]. intros Hr. by apply Hn, Hpd. }
  assert (Hgr : checkpoint_right (k_hist c) (fallback (k_git c)) r0).
  { apply (grown_right (k_hist c0) (k_hist c) HE (proj1 (us_valid _ _ _ _ _ IU)) (fallback (k_git c0))); [|exact IR]. intros x f Hx. unfold fallback, slow_git_blame, git_blame, blame_args. pose proof (Hbl NoContext x f Hx) as Eb. rewrite Eb. reflexivity. }
  assert (Hwf : forall x, x ∈ D -> is_Some (with_files r0 !! x)) by (intros x Hx; apply (kept_with_files (k_hist c) (fallback (k_git c))); [exact Hgr|by apply IS|by apply Hne, HK]).
  assert (Hheadk : is_Some (hi_parents (k_hist c) !! g_head (k_repo c))) by (rewrite Hsame; apply (us_head _ _ _ _ _ HU)).
  assert (Hck : forall x, x ∈ cs -> is_Some (hi_parents (k_hist c) !! x)).
  { intros x Hx. apply Hcs in Hx as [Hr _]. rewrite <- Hsame in Hr. revert Hheadk. clear -Hr HU. induction Hr as [a|a b d Hab _ IHr]; [done|]. intros Ha. apply IHr. by eapply (proj1 (us_valid _ _ _ _ _ HU)). }
  exists cs. split; [|split].
  - split; [apply Hcs|]. split; [exact Hlast|]. exists xs. cbn [fst snd]. split; [exact HF|exact Hrec].
  - constructor; try done.
    + destruct w as [[r v]|]; cbn [default fst snd]; [apply Hleft|exact Hgr].
    + apply elem_of_app. destruct w as [[r v]|]; cbn [default fst snd]; [right|by left]. destruct Hleft as (Hv & _). apply last_Some in Hv as (l' & ->). apply elem_of_app; right; left.
    + intros x [Hx|Hx]%elem_of_app; [by apply HK|by apply Hck].
    + intros x q [Hx|Hx]%elem_of_app Hq; [apply elem_of_app; left; by eapply HD|]. apply Hcov. apply Hcs in Hx as [Hr _]. apply rtc_r with x; [exact Hr|]. unfold parent. rewrite <- Hsame. exact Hq.
    + intros x Hx. destruct w as [[r v]|]; cbn [default fst snd].
      * destruct Hleft as (_ & _ & _ & _ & Hall). apply (Hall l Hlen); [intros a q Ha Hq; apply (Hl a q); [by apply Hcs|by rewrite <- Hsame]|].
        apply elem_of_app in Hx as [Hx|Hx]; [right; by apply Hwf|by left].
      * cbn in Hleft. rewrite Hleft, app_nil_r in Hx. by apply IS.
  - intros Hnon Hfw (Hnd & Hv0 & Hin). destruct Hst as (f & Hf' & Hpf). rewrite Hnon in Hpf. rewrite Hfrom, Hname in Hf'. injection Hf' as <-. subst p.
    assert (HDr : forall x, x ∈ D -> reaches (g_parents (k_repo c)) v0 x).
    { intros x Hx. rewrite <- Hsame. apply (grown_reaches (k_hist c0) (k_hist c) v0 x (proj1 (us_valid _ _ _ _ _ IU)) HE (IK v0 IL)). rewrite (us_same _ _ _ _ _ IU), Hv0. by apply Hin. }
    split; [|split].
    + apply NoDup_app. split; [exact Hnd|]. split; [|apply Hcs]. intros x Hx Hxc. apply Hcs in Hxc as [_ Hn]. by apply Hn, HDr.
    + destruct w as [[r v]|]; cbn [default fst snd].
      * destruct Hleft as (Hv & _). apply (head_last (g_parents (k_repo c)) cs (since (k_repo c) v0)); try done; [intros x Hx; apply Hx|].
        intros x y Hx Hxy [_ Hy]. split; [exact Hx|]. intros Hvx. apply Hy. by etransitivity.
      * cbn in Hleft. destruct (decide (v0 = g_head (k_repo c))) as [|Hneq]; [done|]. exfalso.
        assert (Hnr : ~ reaches (g_parents (k_repo c)) v0 (g_head (k_repo c))).
        { intros Hr. apply Hneq. pose proof (us_acyclic _ _ _ _ _ HU) as Hac. rewrite Hsame in Hac. rewrite <- Hv0 in Hfw. by apply (acyclic_antisym _ Hac). }
        assert (g_head (k_repo c) ∈ cs) as Hx by (apply Hcs; split; [reflexivity|exact Hnr]). rewrite Hleft in Hx. by apply elem_of_nil in Hx.
    + intros x [Hx|Hx]%elem_of_app; [|by apply Hcs in Hx as [? _]]. etransitivity; [exact Hfw|]. rewrite <- Hv0. by apply HDr.
Qed.

Lemma forward_init (l : list (call * list (bresult T L))) x : forward (l ++ [x]) -> forward l.
Proof.
  intros (H1 & H2 & H3). split; [|split].
  - intros y Hy. apply H1. by apply lookup_app_l_Some.
  - intros i y Hy. apply (H2 i). by apply lookup_app_l_Some.
  - intros i y z Hy Hz. apply (H3 i); by apply lookup_app_l_Some.
Qed.
Lemma series_last l c r v : series l c r v -> exists rs, last l = Some (c, rs).
Proof. intros [c' rs r' v' _ _|l' c0 r0 v0 c' p rs w _ _ _]; [by exists rs|]. exists rs. by rewrite last_snoc. Qed.

Lemma series_inv l c r v : series l c r v -> exists css, Forall2 (call_right zt) l css /\ inv c r v (concat css) /\ (forward l -> once c v (concat css)).
Proof.
  induction 1 as [c rs r v Hfirst Hret|l c0 r0 v0 c p rs w HS (css & HF & HI & HO) Hn Hret].
  - destruct (first_inv c rs r v Hfirst Hret) as (cs & H1 & H2 & H3). exists [cs]. cbn [concat]. rewrite app_nil_r. split; [by apply Forall2_cons_2; [|apply Forall2_nil_2]|]. split; [exact H2|].
    intros (Ha & _). apply H3. by apply (Ha (c, rs)).
  - destruct (next_inv c0 r0 v0 (concat css) c p rs w HI Hn Hret) as (cs & H1 & H2 & H3). exists (css ++ [cs]). rewrite concat_app. cbn [concat]. rewrite app_nil_r.
    split; [apply Forall2_app; [exact HF|by apply Forall2_cons_2; [|apply Forall2_nil_2]]|]. split; [exact H2|].
    intros Hfw. destruct (series_last _ _ _ _ HS) as [rs0 Hl0]. pose proof (forward_init _ _ Hfw) as Hf0. destruct Hfw as (_ & Hb & Hd).
    assert (Hlen : l <> []) by (intros ->; done). rewrite last_lookup in Hl0.
    assert (Hpos : S (pred (length l)) = length l) by (destruct l; [done|cbn; lia]).
    assert (Hat : (l ++ [(c, rs)]) !! S (pred (length l)) = Some (c, rs)) by (rewrite Hpos, lookup_app_r by lia; by rewrite Nat.sub_diag).
    apply H3; [exact (Hb _ _ Hat)| |by apply HO]. apply (Hd (pred (length l)) (c0, rs0) (c, rs)); [by apply lookup_app_l_Some|exact Hat].
Qed.
End Series.
