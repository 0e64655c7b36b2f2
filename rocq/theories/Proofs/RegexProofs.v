(** * The patterns of the model are the regular expressions of the code *)
From Verif.Model Require Import Base GoStrings FileInfo CodeInfo GenIgnore.
From Verif.Spec Require Import Text Regex.
From Verif.Proofs Require Import TextLemmas.

(** ** Expressions without repetition are lists of literal texts *)
Inductive tok := TC (c : ascii) | TB | TE.
Fixpoint toks (s : bytes) (ts : list tok) (i j : nat) : Prop :=
  match ts with
  | [] => i = j /\ i <= length s
  | TC c :: ts => s !! i = Some c /\ toks s ts (S i) j
  | TB :: ts => i = 0 /\ toks s ts i j
  | TE :: ts => i = length s /\ toks s ts i j
  end.
Lemma toks_le s ts i j : toks s ts i j -> i <= length s /\ j <= length s.
Proof.
  revert i; induction ts as [|[c| |] ts IH]; cbn [toks]; intros i.
  - intros [-> H]. lia.
  - intros [Hc H]. apply IH in H. lia.
  - intros [-> H]. apply IH in H. lia.
  - intros [-> H]. apply IH in H. lia.
Qed.
Lemma toks_app s ts us i k : toks s (ts ++ us) i k <-> exists j, toks s ts i j /\ toks s us j k.
Proof.
  revert i; induction ts as [|[c| |] ts IH]; cbn [toks app]; intros i.
  - split.
    + intros H. exists i. split; [|exact H]. split; [reflexivity|]. apply toks_le in H. lia.
    + intros (j & [-> _] & H). exact H.
  - rewrite IH. split.
    + intros (Hc & j & H1 & H2). exists j. auto.
    + intros (j & [Hc H1] & H2). split; [exact Hc|]. exists j. auto.
  - rewrite IH. split.
    + intros (Hc & j & H1 & H2). exists j. auto.
    + intros (j & [Hc H1] & H2). split; [exact Hc|]. exists j. auto.
  - rewrite IH. split.
    + intros (Hc & j & H1 & H2). exists j. auto.
    + intros (j & [Hc H1] & H2). split; [exact Hc|]. exists j. auto.
Qed.

Fixpoint product (xs ys : list (list tok)) : list (list tok) :=
  match xs with [] => [] | x :: xs => map (app x) ys ++ product xs ys end.
Lemma in_product x xs ys : In x (product xs ys) <-> exists a b, In a xs /\ In b ys /\ x = a ++ b.
Proof.
  induction xs as [|a xs IH]; cbn [product].
  - split; [intros []|intros (a & b & [] & _)].
  - rewrite in_app_iff, IH, in_map_iff. split.
    + intros [(b & <- & Hb)|(a' & b & Ha & Hb & ->)].
      * exists a, b. cbn. auto.
      * exists a', b. cbn. auto.
    + intros (a' & b & [<-|Ha] & Hb & ->); [left; exists b; auto|right; exists a', b; auto].
Qed.

Fixpoint flat (r : re) : option (list (list tok)) :=
  match r with
  | REps => Some [[]]
  | RChr c => Some [[TC c]]
  | RAny => None
  | RSet cs => Some (map (fun c => [TC c]) cs)
  | RBegin => Some [[TB]]
  | REnd => Some [[TE]]
  | RSeq a b => match flat a, flat b with Some x, Some y => Some (product x y) | _, _ => None end
  | RAlt a b => match flat a, flat b with Some x, Some y => Some (x ++ y) | _, _ => None end
  | ROpt a => match flat a with Some x => Some ([] :: x) | None => None end
  | RStar _ => None
  end.

Lemma matches_le s r i j : matches s r i j -> i <= j <= length s.
Proof.
  induction 1; try (match goal with H : _ !! _ = Some _ |- _ => apply lookup_lt_Some in H end); lia.
Qed.

Lemma flat_ok s r : forall tss, flat r = Some tss -> forall i j, matches s r i j <-> exists ts, In ts tss /\ toks s ts i j.
Proof.
  induction r as [|c| |cs| | |a IHa b IHb|a IHa b IHb|a IHa|a IHa]; cbn [flat]; intros tss Hf i j; simplify_eq.
  - split.
    + inversion 1; subst. exists []. cbn. auto.
    + intros (ts & [<-|[]] & [-> Hl]). by apply m_eps.
  - split.
    + inversion 1 as [|? ? H1| | | | | | | | | | |]; subst. exists [TC c]. split; [by left|]. cbn.
      split; [done|]. split; [done|]. apply lookup_lt_Some in H1. lia.
    + intros (ts & [<-|[]] & [Hc [<- _]]). by apply m_chr.
  - split.
    + inversion 1 as [| | |? c ? H1 H2| | | | | | | | |]; subst. exists [TC c]. split.
      * apply in_map_iff. exists c. split; [done|]. by apply elem_of_list_In.
      * cbn. split; [done|]. split; [done|]. apply lookup_lt_Some in H1. lia.
    + intros (ts & Hin & Ht). apply in_map_iff in Hin as (c & <- & Hin). destruct Ht as [Hc [<- _]].
      eapply m_set; [exact Hc|by apply elem_of_list_In].
  - split.
    + inversion 1; subst. exists [TB]. split; [by left|]. cbn. split; [done|]. split; [done|lia].
    + intros (ts & [<-|[]] & [-> [<- _]]). apply m_begin.
  - split.
    + inversion 1; subst. exists [TE]. split; [by left|]. cbn. split; [done|]. split; [done|lia].
    + intros (ts & [<-|[]] & [-> [<- _]]). apply m_end.
  - destruct (flat a) as [x|] eqn:Ea; [|done]. destruct (flat b) as [y|] eqn:Eb; [|done]. simplify_eq.
    split.
    + inversion 1 as [| | | | | |? ? ? k ? H1 H2| | | | | |]; subst.
      apply (IHa _ eq_refl) in H1 as (t1 & Hi1 & Ht1). apply (IHb _ eq_refl) in H2 as (t2 & Hi2 & Ht2).
      exists (t1 ++ t2). split; [apply in_product; exists t1, t2; auto|]. apply toks_app. exists k. auto.
    + intros (ts & Hin & Ht). apply in_product in Hin as (t1 & t2 & H1 & H2 & ->).
      apply toks_app in Ht as (k & Hk1 & Hk2). apply (m_seq s a b i k j).
      * apply (IHa _ eq_refl). exists t1. auto.
      * apply (IHb _ eq_refl). exists t2. auto.
  - destruct (flat a) as [x|] eqn:Ea; [|done]. destruct (flat b) as [y|] eqn:Eb; [|done]. simplify_eq.
    split.
    + inversion 1 as [| | | | | | |? ? ? ? H1|? ? ? ? H1| | | |]; subst.
      * apply (IHa _ eq_refl) in H1 as (t1 & Hi1 & Ht1). exists t1. split; [apply in_app_iff; auto|done].
      * apply (IHb _ eq_refl) in H1 as (t1 & Hi1 & Ht1). exists t1. split; [apply in_app_iff; auto|done].
    + intros (ts & Hin & Ht). apply in_app_iff in Hin as [Hin|Hin].
      * apply m_alt_l. apply (IHa _ eq_refl). exists ts. auto.
      * apply m_alt_r. apply (IHb _ eq_refl). exists ts. auto.
  - destruct (flat a) as [x|] eqn:Ea; [|done]. simplify_eq.
    split.
    + inversion 1 as [| | | | | | | | |? ? H1|? ? ? H1| |]; subst.
      * exists []. split; [by left|]. cbn. auto.
      * apply (IHa _ eq_refl) in H1 as (t1 & Hi1 & Ht1). exists t1. split; [by right|done].
    + intros (ts & [<-|Hin] & Ht).
      * destruct Ht as [-> Hl]. by apply m_opt_none.
      * apply m_opt_some. apply (IHa _ eq_refl). exists ts. auto.
Qed.

(** ** Anchored texts *)
Fixpoint body (ts : list tok) : option (bytes * bool) :=
  match ts with
  | [] => Some ([], false)
  | TC c :: ts => match body ts with Some (l, e) => Some (c :: l, e) | None => None end
  | TE :: [] => Some ([], true)
  | _ => None
  end.
Definition norm (ts : list tok) : option (bool * bytes * bool) :=
  match ts with
  | TB :: ts => match body ts with Some (l, e) => Some (true, l, e) | None => None end
  | ts => match body ts with Some (l, e) => Some (false, l, e) | None => None end
  end.

Lemma drop_S_lookup (s : bytes) i c : s !! i = Some c -> drop i s = c :: drop (S i) s.
Proof. intros H. apply drop_S. exact H. Qed.

Lemma body_ok s ts : forall l e, body ts = Some (l, e) -> forall i j,
  toks s ts i j <-> i <= length s /\ j = i + length l /\ exists x, drop i s = l ++ x /\ (e = true -> x = []).
Proof.
  induction ts as [|[c| |] ts IH]; cbn [body]; intros l e Hb i j; simplify_eq.
  - cbn [toks length]. split.
    + intros [-> H]. split; [exact H|]. split; [lia|]. exists (drop j s). split; [reflexivity|discriminate].
    + intros (H & -> & _). lia.
  - destruct (body ts) as [[l' e']|] eqn:Eb; [|done]. simplify_eq. cbn [toks]. rewrite (IH _ _ eq_refl). split.
    + intros (Hc & Hl & -> & x & Hx & He). split; [lia|]. split; [cbn; lia|]. exists x. split; [|exact He].
      rewrite (drop_S_lookup _ _ _ Hc), Hx. reflexivity.
    + intros (Hl & -> & x & Hx & He).
      assert (Hc : s !! i = Some c).
      { pose proof (lookup_drop s i 0) as L. rewrite Nat.add_0_r in L. etransitivity; [symmetry; exact L|]. rewrite Hx. reflexivity. }
      split; [exact Hc|]. rewrite (drop_S_lookup _ _ _ Hc) in Hx. cbn in Hx. injection Hx as Hx.
      split; [apply lookup_lt_Some in Hc; lia|]. split; [cbn; lia|]. exists x. auto.
  - destruct ts; [|done]. simplify_eq. cbn [toks length]. split.
    + intros (-> & <- & _). split; [lia|]. split; [lia|]. exists []. split; [|auto]. rewrite drop_ge by lia. reflexivity.
    + intros (Hl & -> & x & Hx & He). specialize (He eq_refl) as ->. cbn in Hx.
      assert (length (drop i s) = 0) as Hd by (rewrite Hx; reflexivity). rewrite drop_length in Hd. lia.
Qed.

Lemma has_suffix_true l s : has_suffix l s = true <-> exists x, s = x ++ l.
Proof.
  unfold has_suffix. split.
  - intros H. apply has_prefix_true in H as [r Hr]. exists (rev r).
    rewrite <- (rev_involutive s), Hr, rev_app_distr, rev_involutive. reflexivity.
  - intros [x ->]. rewrite rev_app_distr. apply has_prefix_app.
Qed.
Lemma beq_true a b : beq a b = true <-> a = b.
Proof. unfold beq. apply bool_decide_eq_true. Qed.

Lemma norm_ok s ts q : norm ts = Some q -> (exists i j, toks s ts i j) <-> lit_match q s = true.
Proof.
  assert (Hg : forall ts l e, body ts = Some (l, e) -> (exists i j, toks s ts i j) <-> lit_match (false, l, e) s = true).
  { intros us l e Hb. split.
    - intros (i & j & H). apply (body_ok s us l e Hb) in H as (Hl & -> & x & Hx & He).
      destruct e; cbn [lit_match].
      + rewrite (He eq_refl), app_nil_r in Hx. apply has_suffix_true. exists (take i s). rewrite <- Hx. symmetry. apply take_drop.
      + apply contains_iff. exists (take i s), x. rewrite <- Hx. symmetry. apply take_drop.
    - destruct e; cbn [lit_match].
      + intros [x Hx]%has_suffix_true. exists (length x), (length x + length l). apply (body_ok s us l true Hb).
        split; [rewrite Hx, app_length; lia|]. split; [reflexivity|]. exists []. split; [|auto]. rewrite Hx, drop_app, app_nil_r. reflexivity.
      + intros (a & x & Hx)%contains_iff. exists (length a), (length a + length l). apply (body_ok s us l false Hb).
        split; [rewrite Hx, app_length; lia|]. split; [reflexivity|]. exists x. split; [|discriminate].
        rewrite Hx, drop_app. reflexivity. }
  assert (Hb0 : forall us l e, body us = Some (l, e) -> norm (TB :: us) = Some q -> (exists i j, toks s (TB :: us) i j) <-> lit_match q s = true).
  { intros us l e Hb Hn. cbn [norm] in Hn. rewrite Hb in Hn. simplify_eq. cbn [toks]. split.
    - intros (i & j & -> & H). apply (body_ok s us l e Hb) in H as (_ & _ & x & Hx & He). rewrite drop_0 in Hx.
      destruct e; cbn [lit_match].
      + apply beq_true. rewrite Hx, (He eq_refl), app_nil_r. reflexivity.
      + rewrite Hx. apply has_prefix_app.
    - intros H. exists 0, (0 + length l). split; [reflexivity|]. apply (body_ok s us l e Hb). split; [lia|]. split; [reflexivity|].
      rewrite drop_0. destruct e; cbn [lit_match] in H.
      + apply beq_true in H. exists []. split; [rewrite app_nil_r; exact H|auto].
      + apply has_prefix_true in H as [x Hx]. exists x. split; [exact Hx|discriminate]. }
  intros Hn. destruct ts as [|[c| |] ts].
  - cbn in Hn. simplify_eq. apply Hg. reflexivity.
  - unfold norm in Hn. destruct (body (TC c :: ts)) as [[l e]|] eqn:Eb; [|done]. simplify_eq. by apply Hg.
  - destruct (body ts) as [[l e]|] eqn:Eb; [|cbn in Hn; by rewrite Eb in Hn]. by apply (Hb0 ts l e Eb).
  - unfold norm in Hn. destruct (body (TE :: ts)) as [[l e]|] eqn:Eb; [|done]. simplify_eq. by apply Hg.
Qed.

(** ** Comparing two lists of anchored texts *)
Definition pat_eqb (p q : bool * bytes * bool) : bool :=
  let '(b, l, e) := p in let '(b', l', e') := q in Bool.eqb b b' && Bool.eqb e e' && beq l l'.
Definition covers (p q : bool * bytes * bool) : bool :=
  pat_eqb p q || let '(b, l, e) := p in let '(_, l', _) := q in negb b && negb e && contains l l'.
Fixpoint normalise (tss : list (list tok)) : option (list (bool * bytes * bool)) :=
  match tss with
  | [] => Some []
  | ts :: r => match norm ts, normalise r with Some q, Some qs => Some (q :: qs) | _, _ => None end
  end.

Definition patterns_of (e : bytes) : option (list (bool * bytes * bool)) :=
  match regex e with Some r => match flat r with Some tss => normalise tss | None => None end | None => None end.

Lemma normalise_ok s tss : forall qs, normalise tss = Some qs ->
  (exists ts, In ts tss /\ exists i j, toks s ts i j) <-> existsb (fun q => lit_match q s) qs = true.
Proof.
  induction tss as [|ts tss IH]; cbn [normalise]; intros qs Hn.
  - simplify_eq. cbn. split; [intros (ts & [] & _)|discriminate].
  - destruct (norm ts) as [q|] eqn:Eq; [|done]. destruct (normalise tss) as [qs'|] eqn:En; [|done]. simplify_eq.
    cbn [existsb]. rewrite orb_true_iff, <- (IH _ eq_refl), <- (norm_ok s ts q Eq). split.
    + intros (us & [<-|Hi] & H); [by left|]. right. exists us. auto.
    + intros [H|(us & Hi & H)].
      * exists ts. split; [by left|exact H].
      * exists us. split; [by right|exact H].
Qed.
Lemma patterns_of_ok e s qs : patterns_of e = Some qs -> matched_by e s <-> existsb (fun q => lit_match q s) qs = true.
Proof.
  unfold patterns_of, matched_by. destruct (regex e) as [r|] eqn:Er; [|done]. destruct (flat r) as [tss|] eqn:Ef; [|done].
  intros Hn. rewrite <- (normalise_ok s tss qs Hn). split.
  - intros (r' & Hr & i & j & Hm). simplify_eq. apply (flat_ok s _ _ Ef) in Hm as (ts & Hi & Ht). exists ts. split; [exact Hi|]. exists i, j. exact Ht.
  - intros (ts & Hi & i & j & Ht). exists r. split; [reflexivity|]. exists i, j. apply (flat_ok s _ _ Ef). exists ts. auto.
Qed.

Lemma pat_eqb_eq p q : pat_eqb p q = true -> p = q.
Proof.
  destruct p as [[b l] e], q as [[b' l'] e']. cbn [pat_eqb]. rewrite !andb_true_iff, beq_true.
  intros [[Hb He] Hl]. apply eqb_prop in Hb, He. by subst.
Qed.
Lemma covers_ok p q s : covers p q = true -> lit_match q s = true -> lit_match p s = true.
Proof.
  unfold covers. rewrite orb_true_iff. intros [H|H].
  - apply pat_eqb_eq in H as ->. auto.
  - destruct p as [[b l] e], q as [[b' l'] e']. rewrite !andb_true_iff, !negb_true_iff in H. destruct H as [[-> ->] Hc].
    apply contains_iff in Hc as (x & y & ->). intros Hq. cbn [lit_match]. apply contains_iff.
    destruct b', e'; cbn [lit_match] in Hq.
    + apply beq_true in Hq as ->. exists x, y. reflexivity.
    + apply has_prefix_true in Hq as [z ->]. exists x, (y ++ z). by rewrite <- !(assoc_L app).
    + apply has_suffix_true in Hq as [z ->]. exists (z ++ x), y. by rewrite <- !(assoc_L app).
    + apply contains_iff in Hq as (z & w & ->). exists (z ++ x), (y ++ w). by rewrite <- !(assoc_L app).
Qed.
Lemma same_patterns s ps qs :
  forallb (fun q => existsb (fun p => covers p q) ps) qs = true -> forallb (fun p => existsb (fun q => pat_eqb q p) qs) ps = true ->
  existsb (fun p => lit_match p s) ps = existsb (fun q => lit_match q s) qs.
Proof.
  rewrite !forallb_forall. intros H1 H2. apply eq_true_iff_eq. rewrite !existsb_exists. split.
  - intros (p & Hp & Hm). apply H2, existsb_exists in Hp as (q & Hq & He). apply pat_eqb_eq in He as ->. exists p. auto.
  - intros (q & Hq & Hm). apply H1, existsb_exists in Hq as (p & Hp & Hc). exists p. split; [exact Hp|]. exact (covers_ok p q s Hc Hm).
Qed.

(** ** The exclusion list *)
Definition check_patterns (e : bytes) (ps : list (bool * bytes * bool)) : bool :=
  match patterns_of e with
  | Some qs => forallb (fun q => existsb (fun p => covers p q) ps) qs && forallb (fun p => existsb (fun q => pat_eqb q p) qs) ps
  | None => false
  end.
Lemma check_patterns_ok e ps s : check_patterns e ps = true -> matched_by e s <-> existsb (fun p => lit_match p s) ps = true.
Proof.
  unfold check_patterns. destruct (patterns_of e) as [qs|] eqn:E; [|done]. rewrite andb_true_iff. intros [H1 H2].
  rewrite (patterns_of_ok e s qs E), (same_patterns s ps qs H1 H2). reflexivity.
Qed.
Lemma ignore_checked : check_patterns ignore_source ignore_patterns = true.
Proof. vm_compute. reflexivity. Qed.
Lemma ignored_iff s : ignored s = true <-> matched_by ignore_source s.
Proof. symmetry. exact (check_patterns_ok _ _ s ignore_checked). Qed.

Lemma generated_checked : check_patterns generated_source
  [(false, B "GENERATED", false); (false, B "DO NOT EDIT", false); (false, B "DO NOT MODIFY", false); (false, B "machine generated", false)] = true.
Proof. vm_compute. reflexivity. Qed.
Lemma generated_iff s : generated_re s = true <-> matched_by generated_source s.
Proof.
  rewrite (check_patterns_ok _ _ s generated_checked). unfold generated_re. cbn [existsb lit_match].
  rewrite orb_false_r, !orb_assoc. reflexivity.
Qed.

(** ** Licence names *)
Lemma in_suffixes p s : In s (suffixes p) <-> exists x, p = x ++ s.
Proof.
  induction p as [|a p IH]; cbn [suffixes].
  - split.
    + intros [<-|[]]. by exists [].
    + intros [x Hx]. symmetry in Hx. apply app_nil in Hx as [_ ->]. by left.
  - cbn [In]. rewrite IH. split.
    + intros [<-|[x ->]]; [by exists []|by exists (a :: x)].
    + intros [[|b x] Hx]; cbn in Hx; [left; exact Hx|]. right. exists x. by injection Hx.
Qed.

(** The texts an expression without anchors matches. *)
Fixpoint lang (r : re) (w : bytes) : Prop :=
  match r with
  | REps => w = []
  | RChr c => w = [c]
  | RSeq a b => exists u v, w = u ++ v /\ lang a u /\ lang b v
  | RAlt a b => lang a w \/ lang b w
  | ROpt a => w = [] \/ lang a w
  | RStar RAny => Forall (fun c => c <> NL) w
  | _ => False
  end.
Fixpoint plain (r : re) : bool :=
  match r with
  | REps | RChr _ | RStar RAny => true
  | RSeq a b | RAlt a b => plain a && plain b
  | ROpt a => plain a
  | _ => false
  end.
Lemma lookup_mid (s : bytes) i c x : s = take i s ++ c :: x -> s !! i = Some c.
Proof.
  intros Hs. assert (drop i s = c :: x) as E.
  { apply (app_inv_head (take i s)). rewrite take_drop. exact Hs. }
  pose proof (lookup_drop s i 0) as L. rewrite Nat.add_0_r in L. etransitivity; [symmetry; exact L|]. rewrite E. reflexivity.
Qed.
Lemma star_any s i j : matches s (RStar RAny) i j <-> exists w x, s = take i s ++ w ++ x /\ i <= length s /\ j = i + length w /\ Forall (fun c => c <> NL) w.
Proof.
  split.
  - intros H. remember (RStar RAny) as r eqn:Er. revert Er. induction H as [| | | | | | | | | | |a i Hi|a i j k Ha _ Hs IH]; intros [=].
    + subst. exists [], (drop i s). split; [symmetry; apply take_drop|]. split; [exact Hi|]. split; [cbn; lia|]. constructor.
    + subst. inversion Ha as [| |c ? Hc Hn| | | | | | | | | |]; subst.
      destruct (IH eq_refl) as (w & x & Hw & Hl & Hk & Hf). exists (c :: w), x.
      split; [|split; [lia|split; [cbn; lia|by constructor]]].
      rewrite Hw at 1. rewrite (take_S_r _ _ _ Hc). rewrite <- (assoc_L app). reflexivity.
  - intros (w & x & Hs & Hl & -> & Hf). revert i Hs Hl. induction Hf as [|c w Hn Hf IH]; intros i Hs Hl.
    + cbn [length]. rewrite Nat.add_0_r. by apply m_star_none.
    + assert (Hc : s !! i = Some c).
      { exact (lookup_mid s i c (w ++ x) Hs). }
      cbn [length]. rewrite Nat.add_succ_r, <- Nat.add_succ_l. eapply m_star_more; [by eapply m_any|]. apply IH.
      * rewrite (take_S_r _ _ _ Hc), <- (assoc_L app). exact Hs.
      * apply lookup_lt_Some in Hc. lia.
Qed.
Lemma take_app_take (s : bytes) i w x : i <= length s -> s = take i s ++ w ++ x -> take (i + length w) s = take i s ++ w.
Proof.
  intros Hl Hs. rewrite Hs at 1. rewrite (assoc_L app). rewrite take_app_alt; [reflexivity|].
  rewrite app_length, take_length. lia.
Qed.
Lemma plain_ok s r : plain r = true -> forall i j, matches s r i j <->
  exists w x, s = take i s ++ w ++ x /\ i <= length s /\ j = i + length w /\ lang r w.
Proof.
  induction r as [|c| |cs| | |a IHa b IHb|a IHa b IHb|a IHa|a IHa]; cbn [plain lang]; intros Hp i j; try discriminate.
  - split.
    + inversion 1; subst. exists [], (drop j s). split; [symmetry; apply take_drop|]. split; [done|]. split; [cbn; lia|done].
    + intros (w & x & Hs & Hl & -> & ->). cbn [length]. rewrite Nat.add_0_r. by apply m_eps.
  - split.
    + inversion 1 as [|? ? Hc| | | | | | | | | | |]; subst. exists [c], (drop (S i) s). split.
      * rewrite <- (take_drop i s) at 1. f_equal. exact (drop_S_lookup s i c Hc).
      * apply lookup_lt_Some in Hc. split; [lia|]. split; [cbn; lia|done].
    + intros (w & x & Hs & Hl & -> & ->). cbn [length]. rewrite Nat.add_1_r. apply m_chr.
      exact (lookup_mid s i c x Hs).
  - apply andb_true_iff in Hp as [Ha Hb]. split.
    + inversion 1 as [| | | | | |? ? ? k ? H1 H2| | | | | |]; subst.
      apply (IHa Ha) in H1 as (u & x & Hs & Hl & -> & Hu). apply (IHb Hb) in H2 as (v & y & Hs' & Hl' & -> & Hv).
      exists (u ++ v), y. split; [|split; [exact Hl|split; [rewrite app_length; lia|exists u, v; auto]]].
      rewrite Hs' at 1. rewrite (take_app_take s i u x Hl Hs). by rewrite <- !(assoc_L app).
    + intros (w & x & Hs & Hl & -> & u & v & -> & Hu & Hv). rewrite <- (assoc_L app) in Hs.
      apply (m_seq s a b i (i + length u)).
      * apply (IHa Ha). exists u, (v ++ x). auto.
      * apply (IHb Hb). exists v, x. split; [|split; [|split; [rewrite app_length; lia|exact Hv]]].
        -- rewrite (take_app_take s i u (v ++ x) Hl Hs), <- (assoc_L app). exact Hs.
        -- assert (length s = length (take i s ++ u ++ v ++ x)) as E by (rewrite <- Hs; reflexivity).
           rewrite !app_length, take_length in E. lia.
  - apply andb_true_iff in Hp as [Ha Hb]. split.
    + inversion 1 as [| | | | | | |? ? ? ? H1|? ? ? ? H1| | | |]; subst.
      * apply (IHa Ha) in H1 as (u & x & Hs & Hl & -> & Hu). exists u, x. auto.
      * apply (IHb Hb) in H1 as (u & x & Hs & Hl & -> & Hu). exists u, x. auto.
    + intros (w & x & Hs & Hl & -> & [Hw|Hw]).
      * apply m_alt_l. apply (IHa Ha). exists w, x. auto.
      * apply m_alt_r. apply (IHb Hb). exists w, x. auto.
  - split.
    + inversion 1 as [| | | | | | | | |? ? H1|? ? ? H1| |]; subst.
      * exists [], (drop j s). split; [symmetry; apply take_drop|]. split; [done|]. split; [cbn; lia|by left].
      * apply (IHa Hp) in H1 as (u & x & Hs & Hl & -> & Hu). exists u, x. auto.
    + intros (w & x & Hs & Hl & -> & [->|Hw]).
      * cbn [length]. rewrite Nat.add_0_r. by apply m_opt_none.
      * apply m_opt_some. apply (IHa Hp). exists w, x. auto.
  - destruct a; try discriminate. exact (star_any s i j).
Qed.

(** An expression without anchors, at the end of the text. *)
Lemma plain_end s r : plain r = true -> found (RSeq r (RSeq REnd REps)) s <-> exists x w, s = x ++ w /\ lang r w.
Proof.
  intros Hp. split.
  - intros (i & j & H). inversion H as [| | | | | |? ? ? k ? H1 H2| | | | | |]; subst.
    inversion H2 as [| | | | | |? ? ? k' ? H3 H4| | | | | |]; subst. inversion H3; subst.
    apply (plain_ok s r Hp) in H1 as (w & x & Hs & Hl & Hk & Hw). exists (take i s), w. split; [|exact Hw].
    assert (length s = length (take i s ++ w ++ x)) as E by (rewrite <- Hs; reflexivity).
    rewrite !app_length, take_length in E. destruct x; [|cbn in E; lia]. rewrite app_nil_r in Hs. exact Hs.
  - intros (x & w & Hs & Hw). exists (length x), (length s). apply (m_seq _ _ _ _ (length s)).
    + apply (plain_ok s r Hp). exists w, []. rewrite app_nil_r. rewrite Hs. rewrite take_app.
      split; [done|]. rewrite app_length. split; [lia|]. split; [lia|exact Hw].
    + apply (m_seq _ _ _ _ (length s)); [apply m_end|apply m_eps; lia].
Qed.

Fixpoint lit (l : bytes) : re := match l with [] => REps | c :: l => RSeq (RChr c) (lit l) end.
Lemma lang_lit l w : lang (lit l) w <-> w = l.
Proof.
  revert w; induction l as [|c l IH]; intros w; cbn [lit lang]; [reflexivity|]. split.
  - intros (u & v & -> & -> & Hv). apply IH in Hv as ->. reflexivity.
  - intros ->. exists [c], l. split; [reflexivity|]. split; [reflexivity|]. by apply IH.
Qed.
Fixpoint lit_star (l : bytes) : re := match l with [] => RSeq (RStar RAny) REps | c :: l => RSeq (RChr c) (lit_star l) end.
Lemma lang_lit_star l w : lang (lit_star l) w <-> exists x, w = l ++ x /\ Forall (fun c => c <> NL) x.
Proof.
  revert w; induction l as [|c l IH]; intros w; cbn [lit_star lang].
  - split.
    + intros (u & v & -> & Hu & ->). exists u. rewrite app_nil_r. auto.
    + intros (x & -> & Hx). exists x, []. rewrite app_nil_r. auto.
  - split.
    + intros (u & v & -> & -> & Hv). apply IH in Hv as (x & -> & Hx). exists x. auto.
    + intros (x & -> & Hx). exists [c], (l ++ x). split; [reflexivity|]. split; [reflexivity|]. apply IH. exists x. auto.
Qed.
Definition license_words : re :=
  RAlt (lit (B "LICENSE")) (RAlt (lit (B "LICENCE")) (RAlt (lit (B "README")) (RAlt (lit (B "COPYING"))
    (RAlt (lit_star (B "LICENSE-")) (RAlt (lit (B "UNLICENSE")) (lit (B "UNLICENCE"))))))).
Definition license_ext : re := ROpt (RSeq (RChr ".") (RSeq (RAlt (lit (B "md")) (lit (B "txt"))) REps)).
Lemma license_regex : regex license_source = Some (RSeq (ROpt (RChr "/")) (RSeq license_words (RSeq license_ext (RSeq REnd REps)))).
Proof. vm_compute. reflexivity. Qed.

Lemma seq_assoc4 s a b c d : found (RSeq a (RSeq b (RSeq c d))) s <-> found (RSeq (RSeq a (RSeq b c)) d) s.
Proof.
  split; intros (i & j & H).
  - inversion H as [| | | | | |? ? ? k ? H1 H2| | | | | |]; subst. inversion H2 as [| | | | | |? ? ? k' ? H3 H4| | | | | |]; subst.
    inversion H4 as [| | | | | |? ? ? k'' ? H5 H6| | | | | |]; subst. exists i, j.
    apply (m_seq _ _ _ _ k''); [|exact H6]. apply (m_seq _ _ _ _ k); [exact H1|]. by apply (m_seq _ _ _ _ k').
  - inversion H as [| | | | | |? ? ? k ? H1 H2| | | | | |]; subst. inversion H1 as [| | | | | |? ? ? k' ? H3 H4| | | | | |]; subst.
    inversion H4 as [| | | | | |? ? ? k'' ? H5 H6| | | | | |]; subst. exists i, j.
    apply (m_seq _ _ _ _ k'); [exact H3|]. apply (m_seq _ _ _ _ k''); [exact H5|]. by apply (m_seq _ _ _ _ k).
Qed.
Lemma lang_words w : lang license_words w <->
  In w [B "LICENSE"; B "LICENCE"; B "README"; B "COPYING"; B "UNLICENSE"; B "UNLICENCE"] \/ exists x, w = B "LICENSE-" ++ x /\ Forall (fun c => c <> NL) x.
Proof.
  unfold license_words. cbn [lang]. rewrite !lang_lit, lang_lit_star. cbn [In].
  split.
  - intros [->|[->|[->|[->|[H|[-> | ->]]]]]]; try (left; tauto). right; exact H.
  - intros [[<-|[<-|[<-|[<-|[<-|[<-|[]]]]]]]|H]; tauto.
Qed.
Lemma lang_ext w : lang license_ext w <-> In w [[]; B ".md"; B ".txt"].
Proof.
  unfold license_ext. cbn [lang In]. split.
  - intros [->|(u & v & -> & -> & u' & v' & -> & [Hu|Hu] & ->)]; [tauto| |]; apply lang_lit in Hu as ->; cbn; tauto.
  - intros [<-|[<-|[<-|[]]]]; [by left| |]; right.
    + exists (B "."), (B "md"). split; [reflexivity|]. split; [reflexivity|]. exists (B "md"), []. split; [reflexivity|]. split; [|reflexivity]. left. by apply lang_lit.
    + exists (B "."), (B "txt"). split; [reflexivity|]. split; [reflexivity|]. exists (B "txt"), []. split; [reflexivity|]. split; [|reflexivity]. right. by apply lang_lit.
Qed.

Lemma license_name_iff s : license_name s = true <->
  (exists w x, In w [B "LICENSE"; B "LICENCE"; B "README"; B "COPYING"; B "UNLICENSE"; B "UNLICENCE"] /\ In x [[]; B ".md"; B ".txt"] /\ s = w ++ x)
  \/ exists x, s = B "LICENSE-" ++ x /\ Forall (fun c => c <> NL) x.
Proof.
  unfold license_name. rewrite orb_true_iff, existsb_exists, andb_true_iff, forallb_forall. split.
  - intros [(w & Hw & Hx)|[Hp Hf]].
    + apply existsb_exists in Hx as (x & Hx & Hb). apply beq_true in Hb. left. exists w, x. auto.
    + apply has_prefix_true in Hp as [x ->]. right. exists x. split; [reflexivity|]. apply Forall_forall. intros c Hc.
      specialize (Hf c). rewrite in_app_iff in Hf. apply elem_of_list_In in Hc. specialize (Hf (or_intror Hc)).
      apply negb_true_iff, bool_decide_eq_false in Hf. exact Hf.
  - intros [(w & x & Hw & Hx & ->)|(x & -> & Hf)].
    + left. exists w. split; [exact Hw|]. apply existsb_exists. exists x. split; [exact Hx|]. by apply beq_true.
    + right. split; [apply has_prefix_app|]. intros c Hc. apply negb_true_iff, bool_decide_eq_false.
      apply in_app_iff in Hc as [Hc|Hc].
      * intros ->. cbn in Hc. repeat (destruct Hc as [Hc|Hc]; [discriminate Hc|]). exact Hc.
      * apply elem_of_list_In in Hc. exact (proj1 (Forall_forall _ _) Hf c Hc).
Qed.
Lemma license_iff p : possible_license p = true <-> matched_by license_source p.
Proof.
  unfold possible_license, matched_by. rewrite existsb_exists. transitivity (exists x w, p = x ++ w /\
    lang (RSeq (ROpt (RChr "/")) (RSeq license_words license_ext)) w).
  - split.
    + intros (w & Hw & Hn). apply in_suffixes in Hw as [x ->]. exists x, w. split; [reflexivity|].
      cbn [lang]. exists [], w. split; [reflexivity|]. split; [by left|].
      apply license_name_iff in Hn as [(u & v & Hu & Hv & ->)|(y & -> & Hy)].
      * exists u, v. split; [reflexivity|]. split; [apply lang_words; by left|by apply lang_ext].
      * exists (B "LICENSE-" ++ y), []. split; [by rewrite app_nil_r|]. split; [apply lang_words; right; exists y; auto|]. apply lang_ext. by left.
    + intros (x & w & -> & H). cbn [lang] in H. destruct H as (a & b & -> & _ & u & v & -> & Hu & Hv).
      exists (u ++ v). split; [apply in_suffixes; exists (x ++ a); by rewrite <- (assoc_L app)|].
      apply license_name_iff. apply lang_ext in Hv. apply lang_words in Hu as [Hu|(y & -> & Hy)].
      * left. exists u, v. auto.
      * right. exists (y ++ v). split; [by rewrite <- (assoc_L app)|]. apply Forall_app. split; [exact Hy|].
        destruct Hv as [<-|[<-|[<-|[]]]]; [constructor| |]; apply Forall_forall; intros c Hc Ec; subst c;
          apply elem_of_list_In in Hc; cbn in Hc; repeat (destruct Hc as [Hc|Hc]; [discriminate Hc|]); exact Hc.
  - rewrite <- (plain_end p (RSeq (ROpt (RChr "/")) (RSeq license_words license_ext)) eq_refl). rewrite <- seq_assoc4. split.
    + intros H. eexists. split; [exact license_regex|exact H].
    + intros (r & Hr & H). rewrite license_regex in Hr. injection Hr as <-. exact H.
Qed.
