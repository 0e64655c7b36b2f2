(** * strings.TrimSpace removes the white space around a text *)
From Verif.Model Require Import Base GoStrings.
From Verif.Spec Require Import Text.
From Coq Require Import Lia.

(** ** Characters of up to three bytes *)
Section Runes.
Context (p2 : ascii -> ascii -> bool) (p3 : ascii -> ascii -> ascii -> bool).
Context (H2 : forall a b, p2 a b = true -> is_space a = false) (H3 : forall a b c, p3 a b c = true -> is_space a = false /\ p2 a b = false).
Inductive rune : bytes -> Prop :=
| rune1 a : is_space a = true -> rune [a]
| rune2 a b : p2 a b = true -> rune [a; b]
| rune3 a b c : p3 a b c = true -> rune [a; b; c].
Lemma trim_rune w u : rune w -> trim_runes p2 p3 (w ++ u) = trim_runes p2 p3 u.
Proof.
  intros [a E|a b E|a b c E]; cbn [app trim_runes].
  - by rewrite E.
  - by rewrite (H2 a b E), E.
  - destruct (H3 a b c E) as [-> ->]. by rewrite E.
Qed.
Lemma trim_none u : (forall w r, rune w -> u <> w ++ r) -> trim_runes p2 p3 u = u.
Proof.
  intros H. destruct u as [|a r]; [done|]. cbn [trim_runes]. destruct (is_space a) eqn:E1; [by destruct (H [a] r (rune1 a E1))|].
  destruct r as [|b r]; [done|]. destruct (p2 a b) eqn:E2; [by destruct (H [a; b] r (rune2 a b E2))|].
  destruct r as [|c r]; [done|]. destruct (p3 a b c) eqn:E3; [by destruct (H [a; b; c] r (rune3 a b c E3))|done].
Qed.
Lemma trim_spec n : forall s, length s <= n -> exists ws, s = concat ws ++ trim_runes p2 p3 s /\ Forall rune ws /\ (forall w r, rune w -> trim_runes p2 p3 s <> w ++ r).
Proof.
  induction n as [|n IH]; intros s Hn.
  - destruct s; [|cbn in Hn; lia]. exists []. split; [done|]. split; [by apply Forall_nil|]. intros w r [] ; done.
  - assert (Hd : {w & {u | s = w ++ u /\ rune w}} + {forall w r, rune w -> s <> w ++ r}).
    { destruct s as [|a r]; [right; by intros w r []|]. destruct (is_space a) eqn:E1; [left; exists [a], r; split; [done|by apply rune1]|].
      destruct r as [|b r]; [right; intros w r [x Ex|x y Ex|x y z Ex] [=]; subst; congruence|]. destruct (p2 a b) eqn:E2; [left; exists [a; b], r; split; [done|by apply rune2]|].
      destruct r as [|c r]; [right; intros w r [x Ex|x y Ex|x y z Ex] [=]; subst; congruence|]. destruct (p3 a b c) eqn:E3; [left; exists [a; b; c], r; split; [done|by apply rune3]|].
      right. intros w r' [x Ex|x y Ex|x y z Ex] [=]; subst; congruence. }
    destruct Hd as [(w & u & -> & Hw)|Hno].
    + rewrite (trim_rune w u Hw). destruct (IH u) as (ws & E & Hws & Ht). { rewrite app_length in Hn. destruct Hw; cbn in Hn; lia. }
      exists (w :: ws). split; [cbn [concat]; rewrite <- app_assoc; by rewrite <- E|]. split; [by apply Forall_cons|]. exact Ht.
    + rewrite (trim_none s Hno). exists []. split; [done|]. split; [by apply Forall_nil|]. exact Hno.
Qed.
Lemma trim_all ws u : Forall rune ws -> trim_runes p2 p3 (concat ws ++ u) = trim_runes p2 p3 u.
Proof. induction 1 as [|w ws Hw _ IH]; [done|]. cbn [concat]. rewrite <- app_assoc. by rewrite (trim_rune w _ Hw). Qed.
End Runes.

(** ** The white space of Go and of the specification *)
Notation fwd := (rune space2 space3).
Notation bwd := (rune (fun b a => space2 a b) (fun c b a => space3 a b c)).
Ltac bd := repeat match goal with H : bool_decide _ = true |- _ => apply bool_decide_eq_true in H; subst | H : _ || _ = true |- _ => apply orb_true_iff in H as [H|H]
  | H : _ && _ = true |- _ => apply andb_true_iff in H as [? ?] | H : false = true |- _ => discriminate H | H : existsb _ _ = true |- _ => cbn [existsb] in H end.
Ltac in_white := repeat (first [apply elem_of_list_here|apply elem_of_list_further]).
Lemma white_rune w : w ∈ white <-> fwd w.
Proof.
  split.
  - intros H. unfold white in H. repeat (apply elem_of_cons in H as [->|H]; [first [apply rune1; reflexivity|apply rune2; reflexivity|apply rune3; reflexivity]|]). by apply elem_of_nil in H.
  - intros [a E|a b E|a b c E]; [unfold is_space in E|unfold space2 in E|unfold space3 in E]; bd; apply (bool_decide_unpack _); vm_compute; exact I.
Qed.
Lemma space2_first a b : space2 a b = true -> is_space a = false.
Proof. unfold space2. intros E; bd; reflexivity. Qed.
Lemma space2_last a b : space2 a b = true -> is_space b = false.
Proof. unfold space2. intros E; bd; reflexivity. Qed.
Lemma space3_first a b c : space3 a b c = true -> is_space a = false /\ space2 a b = false.
Proof. unfold space3. intros E; bd; split; reflexivity. Qed.
Lemma space3_last a b c : space3 a b c = true -> is_space c = false /\ space2 b c = false.
Proof. unfold space3. intros E; bd; split; reflexivity. Qed.
Lemma rune_rev w : bwd w <-> fwd (rev w).
Proof.
  split.
  - intros [a E|a b E|a b c E]; cbn; [by apply rune1|by apply rune2|by apply rune3].
  - rewrite <- (rev_involutive w) at 2. generalize (rev w). intros v [a E|a b E|a b c E]; cbn; [by apply rune1|by apply rune2|by apply rune3].
Qed.
(** All bytes of a white space of several bytes are above 127; continuation bytes do not begin one. *)
Definition high (c : ascii) : bool := (128 <=? N_of_ascii c)%N.
Definition cont (c : ascii) : bool := high c && (N_of_ascii c <? 192)%N.
Lemma white_tail c r : c :: r ∈ white -> Forall (fun x => cont x = true) r /\ (r <> [] -> Forall (fun x => high x = true) (c :: r)).
Proof.
  rewrite white_rune. intros H. inversion H as [a E|a b E|a b x E]; subst; [split; [by apply Forall_nil|done]|unfold space2 in E|unfold space3 in E];
    bd; (split; [|intros _]; repeat (apply Forall_cons; split; [reflexivity|]); by apply Forall_nil).
Qed.
Lemma white_head c r : c :: r ∈ white -> cont c = false.
Proof. rewrite white_rune. intros H. inversion H as [a E|a b E|a b x E]; subst; [unfold is_space in E|unfold space2 in E|unfold space3 in E]; bd; reflexivity. Qed.
Lemma white_nonempty w : w ∈ white -> w <> [].
Proof. rewrite white_rune. by intros []. Qed.

(** [t] starts with no white space, and something that begins with no continuation byte follows. *)
Lemma no_front t u : t <> [] -> (forall w r, w ∈ white -> t <> w ++ r) -> (forall c r, u = c :: r -> cont c = false) -> forall w r, w ∈ white -> t ++ u <> w ++ r.
Proof.
  intros Ht H Hu w r Hw E. apply app_eq_inv in E as [(k & -> & Ek)|(k & -> & Ek)]; [by apply (H w k Hw)|].
  destruct k as [|c k]; [rewrite app_nil_r in Hw; apply (H t []); [exact Hw|by rewrite app_nil_r]|]. cbn [app] in Ek. pose proof (Hu _ _ Ek) as Hc.
  destruct t as [|c' t]; [done|]. cbn [app] in Hw. apply white_tail in Hw as [Hw _]. apply Forall_app in Hw as [_ Hw]. apply Forall_inv in Hw. congruence.
Qed.
Lemma concat_head ws c r : Forall (fun w => w ∈ white) ws -> concat ws = c :: r -> cont c = false.
Proof.
  intros H E. destruct H as [|w ws Hw _]; [done|]. pose proof (white_nonempty w Hw). destruct w as [|c' w]; [done|]. cbn in E. injection E as <- _. by eapply white_head.
Qed.
Lemma concat_rev_tok (ws : list bytes) : rev (concat ws) = concat (map (@rev ascii) (rev ws)).
Proof. induction ws as [|w ws IH]; [done|]. cbn [concat rev]. rewrite rev_app_distr, IH, map_app, concat_app. cbn [map concat]. by rewrite app_nil_r. Qed.

Lemma Forall_fwd ws : Forall (fun w => w ∈ white) ws -> Forall fwd ws.
Proof. intros H. eapply Forall_impl; [exact H|]. intros w. apply white_rune. Qed.
Lemma Forall_bwd ws : Forall (fun w => w ∈ white) ws -> Forall bwd (map (@rev ascii) (rev ws)).
Proof.
  intros H. apply Forall_forall. intros w Hw. apply elem_of_list_fmap in Hw as (v & -> & Hv). rewrite elem_of_list_In, <- in_rev, <- elem_of_list_In in Hv.
  apply rune_rev. rewrite rev_involutive. apply white_rune. by eapply Forall_forall in H.
Qed.
Lemma trimmed_iff s t : trimmed s t <-> t = trim_space s.
Proof.
  unfold trim_space. split.
  - intros (a & b & -> & Hab & Hb). apply Forall_app in Hab as [Ha Hb'].
    rewrite (trim_all _ _ space2_first space3_first) by by apply Forall_fwd. destruct t as [|c t].
    + cbn [app]. pose proof (trim_all _ _ space2_first space3_first b [] (Forall_fwd _ Hb')) as E. rewrite app_nil_r in E. rewrite E. done.
    + rewrite (trim_none space2 space3 ((c :: t) ++ concat b)).
      * rewrite rev_app_distr, concat_rev_tok. rewrite (trim_all (fun b a => space2 a b) (fun c b a => space3 a b c)); [|intros x y; apply space2_last|intros x y z; apply space3_last|by apply Forall_bwd].
        rewrite trim_none; [by rewrite rev_involutive|]. intros w r Hw E. apply rune_rev, white_rune in Hw. destruct (Hb _ (rev r) Hw) as [_ Hb2]. apply Hb2.
        rewrite <- rev_app_distr, <- E. by rewrite rev_involutive.
      * intros w r Hw. apply white_rune in Hw. apply no_front; [done| | |done]; [intros w' r' Hw'; exact (proj1 (Hb w' r' Hw'))|]. intros x y Exy. by eapply concat_head.
  - intros ->. destruct (trim_spec space2 space3 space2_first space3_first (length s) s ltac:(lia)) as (a & H1 & H2 & H3). set (u := trim_runes space2 space3 s) in *.
    destruct (trim_spec (fun b a => space2 a b) (fun c b a => space3 a b c) ltac:(intros x y; apply space2_last) ltac:(intros x y z; apply space3_last) (length (rev u)) (rev u) ltac:(lia)) as (b & H4 & H5 & H6).
    set (v := trim_runes _ _ (rev u)) in *.
    assert (Hu : u = rev v ++ concat (map (@rev ascii) (rev b))) by (by rewrite <- concat_rev_tok, <- rev_app_distr, <- H4, rev_involutive).
    exists a, (map (@rev ascii) (rev b)). split; [by rewrite <- Hu|]. split.
    + apply Forall_app. split; [eapply Forall_impl; [exact H2|]; intros w; apply white_rune|]. apply Forall_forall. intros w Hw. apply elem_of_list_fmap in Hw as (x & -> & Hx).
      rewrite elem_of_list_In, <- in_rev, <- elem_of_list_In in Hx. apply white_rune. eapply Forall_forall in H5; [|exact Hx]. by apply rune_rev in H5.
    + intros w r Hw. split; intros E.
      * apply (H3 w (r ++ concat (map (@rev ascii) (rev b)))); [by apply white_rune|]. rewrite Hu, E. by rewrite <- app_assoc.
      * apply (H6 (rev w) (rev r)); [apply rune_rev; rewrite rev_involutive; by apply white_rune|]. rewrite <- rev_app_distr, <- E. by rewrite rev_involutive.
Qed.

(** ** Texts without white space around them *)
Lemma trim_bare t : bare t -> trim_space t = t.
Proof. intros H. symmetry. apply trimmed_iff. exists [], []. split; [cbn; by rewrite app_nil_r|]. split; [by apply Forall_nil|done]. Qed.
Lemma white_nl : [NL] ∈ white.
Proof. apply white_rune, rune1. reflexivity. Qed.
Lemma trim_bare_nl t : bare t -> trim_space (t ++ [NL]) = t.
Proof. intros H. symmetry. apply trimmed_iff. exists [], [[NL]]. split; [done|]. split; [apply Forall_singleton, white_nl|done]. Qed.
(** A byte no white space starts or ends with. *)
Definition solid (c : ascii) : bool := negb (is_space c) && negb (high c).
Lemma white_not_solid w : w ∈ white -> Forall (fun c => solid c = false) w.
Proof.
  intros H. pose proof (white_nonempty w H) as Hn. destruct w as [|c r]; [done|]. destruct r as [|d r].
  - apply white_rune in H. inversion H as [a E| |]; subst. apply Forall_cons. split; [|by apply Forall_nil]. unfold solid. by rewrite E.
  - apply white_tail in H as [_ H]. specialize (H ltac:(done)). eapply Forall_impl; [exact H|]. intros x Hx. cbn beta in Hx. unfold solid. rewrite Hx. by rewrite andb_false_r.
Qed.
Lemma bare_ends t : (forall c r, t = c :: r -> solid c = true) -> (forall c r, t = r ++ [c] -> solid c = true) -> bare t.
Proof.
  intros H1 H2 w r Hw. pose proof (white_nonempty w Hw) as Hn. pose proof (white_not_solid w Hw) as Hs. split; intros ->.
  - destruct w as [|c w]; [done|]. apply Forall_inv in Hs. rewrite (H1 c (w ++ r) eq_refl) in Hs. done.
  - destruct w as [|c w _] using rev_ind; [done|]. rewrite Forall_app, Forall_singleton in Hs. destruct Hs as [_ Hs]. rewrite (H2 c (r ++ w) ltac:(by rewrite app_assoc)) in Hs. done.
Qed.
Lemma bare_solid t : Forall (fun c => solid c = true) t -> bare t.
Proof. intros H. apply bare_ends; intros c r ->; [by apply Forall_inv in H|]. rewrite Forall_app, Forall_singleton in H. apply H. Qed.
(** A text that starts with a byte like that and ends with a bare one after one. *)
Lemma bare_line c s d t : solid c = true -> solid d = true -> t <> [] -> bare t -> bare (c :: s ++ d :: t).
Proof.
  intros Hc Hd Ht Hb w r Hw. pose proof (white_nonempty w Hw) as Hn. pose proof (white_not_solid w Hw) as Hs. split; intros E.
  - destruct w as [|c' w]; [done|]. injection E as <- _. apply Forall_inv in Hs. congruence.
  - change (c :: s ++ d :: t) with ((c :: s) ++ [d] ++ t) in E. rewrite app_assoc in E. apply app_eq_inv in E as [(k & Ek & ->)|(k & -> & Ek)].
    + destruct k as [|x k _] using rev_ind; [cbn [app] in Hb; by apply (Hb t [] Hw)|]. rewrite app_assoc in Ek. apply app_inj_tail in Ek as [_ ->].
      apply Forall_app in Hs as [Hs _]. apply Forall_app in Hs as [_ Hs]. apply Forall_inv in Hs. congruence.
    + by apply (Hb w k Hw).
Qed.

(** [t] ends with no white space, and a byte of ASCII is before it. *)
Lemma no_back d u t : high d = false -> t <> [] -> (forall w r, w ∈ white -> t <> r ++ w) -> forall w r, w ∈ white -> u ++ d :: t <> r ++ w.
Proof.
  intros Hd Ht H w r Hw E. change (u ++ d :: t) with (u ++ [d] ++ t) in E. rewrite app_assoc in E. apply app_eq_inv in E as [(k & Ek & ->)|(k & -> & ->)].
  - destruct k as [|c k _] using rev_ind; [by apply (H t [])|]. rewrite app_assoc in Ek. apply app_inj_tail in Ek as [_ ->].
    destruct k as [|e k]; cbn [app] in Hw.
    + apply white_tail in Hw as [_ Hw]. specialize (Hw Ht). apply Forall_inv in Hw. congruence.
    + rewrite <- app_assoc in Hw. apply white_tail in Hw as [_ Hw]. specialize (Hw ltac:(by destruct k)). apply Forall_inv_tail, Forall_app in Hw as [_ Hw]. apply Forall_inv in Hw. congruence.
  - by apply (H w k).
Qed.
