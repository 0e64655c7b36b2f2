(** * Names in numstat lines: [get_filename] finds the name of the file *)
From Verif.Model Require Import Base GoStrings CommitMeta.
From Verif.Spec Require Import Text MetaLog.
From Verif.Proofs Require Import TextLemmas.
From Coq Require Import Lia.

(** ** split and join *)

Lemma split_char_sep c x y : split_char c (x ++ c :: y) = split_char c x ++ split_char c y.
Proof.
  induction x as [|a x IH]; simpl.
  - by rewrite bool_decide_eq_true_2.
  - case_bool_decide; [by rewrite IH|]. rewrite IH.
    destruct (split_char c x) eqn:E; [by apply split_char_not_nil in E|]. done.
Qed.

Lemma join_split c s : join [c] (split_char c s) = s.
Proof.
  induction s as [|a s IH]; [done|]. simpl. case_bool_decide as E.
  - subst. destruct (split_char c s) as [|l ls] eqn:El; [by apply split_char_not_nil in El|].
    rewrite join_cons. simpl. f_equal. exact IH.
  - destruct (split_char c s) as [|l ls] eqn:El; [by apply split_char_not_nil in El|].
    destruct ls; simpl in *; by f_equal.
Qed.

Lemma split_char_no_sep c s : Forall (fun x => c ∉ x) (split_char c s).
Proof.
  induction s as [|a s IH]; simpl; [repeat constructor; set_solver|].
  case_bool_decide as E; [constructor; [set_solver|done]|].
  destruct (split_char c s) as [|l ls]; inversion IH; subst; constructor; auto; [|].
  - apply not_elem_of_cons. split; [congruence|set_solver].
  - apply not_elem_of_cons. split; [congruence|done].
Qed.

Lemma split_elem c s x d : x ∈ split_char c s -> d ∈ x -> d ∈ s.
Proof.
  revert x. induction s as [|a s IH]; intros x; simpl.
  - intros ->%elem_of_list_singleton. set_solver.
  - case_bool_decide.
    + intros [->|Hx]%elem_of_cons; [set_solver|]. intros Hd. right. by eapply IH.
    + destruct (split_char c s) as [|l ls] eqn:El.
      * intros ->%elem_of_list_singleton. set_solver.
      * intros [->|Hx]%elem_of_cons Hd.
        -- apply elem_of_cons in Hd as [->|Hd]; [left|right]. eapply IH; [left|done].
        -- right. eapply IH; [by right|done].
Qed.

(** ** path.Clean *)

Definition parts (s : bytes) : list bytes := filter (fun c : bytes => c <> []) (split_char SLASH s).

Lemma parts_sep x y : parts (x ++ SLASH :: y) = parts x ++ parts y.
Proof. unfold parts. by rewrite split_char_sep, filter_app. Qed.
Lemma parts_nil : parts [] = [].
Proof. done. Qed.

Definition normal (c : bytes) : Prop := c <> [] /\ c <> B "." /\ c <> B "..".

Lemma parts_repo s : repo_path s -> parts s = split_char SLASH s.
Proof.
  unfold parts, repo_path. induction 1 as [|c l H _ IH]; [done|].
  rewrite filter_cons. case_decide; [f_equal; exact IH|]. destruct H as (H & _); contradiction.
Qed.

Lemma clean_fold rooted l acc :
  Forall normal (filter (fun c : bytes => c <> []) l) ->
  fold_left (clean_step rooted) l acc = rev (filter (fun c : bytes => c <> []) l) ++ acc.
Proof.
  revert acc. induction l as [|c l IH]; intros acc H; [done|].
  simpl. rewrite filter_cons in H |- *. case_decide as Hc.
  - inversion H as [|? ? (H1&H2&H3) H4]; subst. rewrite IH by done. simpl. rewrite <- app_assoc. simpl.
    f_equal. unfold clean_step, beq. rewrite !bool_decide_eq_false_2 by done. done.
  - assert (c = []) as -> by (destruct (decide (c = [])); [done|tauto]).
    rewrite IH by done. done.
Qed.

Lemma join_not_nil l : l <> [] -> Forall (fun c : bytes => c <> []) l -> join [SLASH] l <> [].
Proof.
  destruct l as [|c [|d l]]; intros H1 H2; [done| |]; inversion H2; subst.
  - done.
  - rewrite join_cons. destruct c; done.
Qed.

Lemma path_clean_parts s :
  Forall normal (parts s) -> parts s <> [] -> has_prefix [SLASH] s = false ->
  path_clean s = join [SLASH] (parts s).
Proof.
  intros Hn Hne Hr. unfold path_clean. rewrite Hr, clean_fold by done. rewrite app_nil_r, rev_involutive.
  change (filter _ (split_char SLASH s)) with (parts s).
  unfold beq. rewrite bool_decide_eq_false_2; [done|]. apply join_not_nil; [done|].
  eapply Forall_impl; [exact Hn|]. intros ? []; done.
Qed.

(** ** The regular expression *)

Lemma longest_some {A} (f : bytes -> option A) s p x : longest f s = Some (p, x) -> exists s', s = p ++ s' /\ f s' = Some x.
Proof.
  revert p. induction s as [|a s IH]; intros p; simpl.
  - destruct (f []) eqn:E; [|done]. intros [= <- <-]. by exists [].
  - destruct (longest f s) as [[q y]|].
    + intros [= <- <-]. destruct (IH q eq_refl) as (s' & -> & ?). by exists s'.
    + destruct (f (a :: s)) eqn:E; [|done]. intros [= <- <-]. by exists (a :: s).
Qed.

Lemma longest_none {A} (f : bytes -> option A) s : (forall p s', s = p ++ s' -> f s' = None) -> longest f s = None.
Proof.
  induction s as [|a s IH]; intros H; simpl.
  - by rewrite (H [] []).
  - rewrite IH; [by rewrite (H [] (a :: s))|]. intros p s' ->. by apply (H (a :: p)).
Qed.

Lemma longest_at {A} (f : bytes -> option A) p s x :
  f s = Some x -> (forall c q s', s = c :: q ++ s' -> f s' = None) -> longest f (p ++ s) = Some (p, x).
Proof.
  intros Hx Hl. induction p as [|a p IH]; simpl; [|by rewrite IH].
  destruct s as [|c s]; simpl; [by rewrite Hx|].
  rewrite longest_none; [by rewrite Hx|]. intros q s' ->. by eapply Hl.
Qed.

Lemma lit_then_none {A} lit (f : bytes -> option A) c l s : lit = c :: l -> c ∉ s -> lit_then lit f s = None.
Proof.
  intros -> H. unfold lit_then. destruct (has_prefix (c :: l) s) eqn:E; [|done].
  apply has_prefix_true in E as (r & ->). set_solver.
Qed.

Lemma rename_re_arrow s r : rename_re s = Some r -> has_arrow s.
Proof.
  destruct r as (m1 & m2 & m3 & m4). unfold rename_re. intros (s1 & -> & H1)%longest_some.
  unfold lit_then at 1 in H1. destruct (has_prefix (B "{") s1) eqn:E1; [|done].
  apply has_prefix_true in E1 as (r1 & ->). rewrite drop_app_len in H1.
  apply longest_some in H1 as (s2 & -> & H2). unfold lit_then at 1 in H2.
  destruct (has_prefix (B " => ") s2) eqn:E3; [|done].
  apply has_prefix_true in E3 as (r2 & ->).
  exists (m1 ++ B "{" ++ m2), r2. by rewrite <- !app_assoc.
Qed.

Lemma cut_none s : ~ has_arrow s -> cut ARROW s = None.
Proof.
  induction s as [|a s IH]; intros H; [done|].
  cbn [cut]. destruct (has_prefix ARROW (a :: s)) eqn:E.
  - apply has_prefix_true in E as (r & E). destruct H. exists [], r. exact E.
  - rewrite IH; [done|]. intros (x & y & ->). destruct H. by exists (a :: x), y.
Qed.

Lemma cut_some s x y : cut ARROW s = Some (x, y) -> s = x ++ ARROW ++ y.
Proof.
  revert x y. induction s as [|a s IH]; intros x y; [done|].
  cbn [cut]. destruct (has_prefix ARROW (a :: s)) eqn:E.
  - apply has_prefix_true in E as (r & E). rewrite E. rewrite drop_app_len. intros [= <- <-]. done.
  - destruct (cut ARROW s) as [[u v]|]; [|done]. intros [= <- <-]. by rewrite (IH u v).
Qed.

Lemma split_str_eq s :
  split_str ARROW s = match cut ARROW s with Some (x, y) => x :: splitn (S (length s)) ARROW y | None => [s] end.
Proof. done. Qed.

Lemma no_gt_no_arrow s : ">"%char ∉ s -> ~ has_arrow s.
Proof. intros H (a & b & ->). apply H. apply elem_of_app. right. right. right. left. Qed.

Lemma get_filename_plain p : ~ has_arrow p -> get_filename p = p.
Proof.
  intros H. unfold get_filename. destruct (rename_re p) as [r|] eqn:E; [by apply rename_re_arrow in E|].
  change (B " => ") with ARROW. by rewrite split_str_eq, cut_none.
Qed.

Lemma cut_first from to : ">"%char ∉ from -> cut ARROW (from ++ ARROW ++ to) = Some (from, to).
Proof.
  induction from as [|a from IH]; intros H.
  - rewrite app_nil_l. change (cut ARROW (ARROW ++ to)) with (Some (@nil ascii, drop 4 (ARROW ++ to))). done.
  - change ((a :: from) ++ ARROW ++ to) with (a :: from ++ ARROW ++ to). cbn [cut].
    replace (has_prefix ARROW (a :: from ++ ARROW ++ to)) with false.
    + rewrite IH by set_solver. done.
    + symmetry. apply not_true_iff_false. intros (r & E)%has_prefix_true.
      destruct from as [|b [|c from]]; simpl in E; [congruence|congruence|].
      assert (c = ">"%char) by congruence. set_solver.
Qed.

Lemma get_filename_whole from to : simple_name from -> simple_name to -> get_filename (from ++ ARROW ++ to) = to.
Proof.
  intros (H1&H2&H3) (H4&H5&H6). unfold get_filename. destruct (rename_re _) as [(m1 & m2 & m3 & m4)|] eqn:E.
  - exfalso. unfold rename_re in E. apply longest_some in E as (s' & E & H). unfold lit_then at 1 in H.
    destruct (has_prefix (B "{") s') eqn:E1; [|done]. apply has_prefix_true in E1 as (r & ->).
    assert ("{"%char ∈ from ++ ARROW ++ to) as Hin by (rewrite E; apply elem_of_app; right; left).
    apply elem_of_app in Hin as [?|[Hin|?]%elem_of_app]; [done| |done].
    apply elem_of_list_In in Hin. simpl in Hin. intuition congruence.
  - change (B " => ") with ARROW. rewrite split_str_eq, cut_first by done.
    destruct (length (from ++ ARROW ++ to)) as [|n] eqn:El.
    { rewrite !app_length in El. simpl in El. lia. }
    cbn [splitn]. rewrite (cut_none to) by by apply no_gt_no_arrow. done.
Qed.

Lemma rename_re_parts pfx a b sfx :
  "{"%char ∉ a -> "{"%char ∉ b -> "{"%char ∉ sfx -> ">"%char ∉ b -> ">"%char ∉ sfx -> "}"%char ∉ sfx ->
  rename_re (pfx ++ B "{" ++ a ++ ARROW ++ b ++ B "}" ++ sfx) = Some (pfx, (a, (b, sfx))).
Proof.
  intros Ha Hb Hs Gb Gs Ts. unfold rename_re. apply longest_at.
  - unfold lit_then at 1. rewrite has_prefix_app, drop_app_len. apply longest_at.
    + unfold lit_then at 1. change (B " => ") with ARROW. rewrite has_prefix_app, drop_app_len. apply longest_at.
      * unfold lit_then. by rewrite has_prefix_app, drop_app_len.
      * intros c q s' E. eapply lit_then_none; [done|]. simpl in E. injection E as <- E. subst sfx. set_solver.
    + intros c q s' E.
      unfold lit_then at 1. destruct (has_prefix (B " => ") s') eqn:E1; [|done]. exfalso.
      apply has_prefix_true in E1 as (r & ->).
      assert (">"%char ∈ b ++ "}"%char :: sfx) as Hin.
      { destruct q as [|c1 [|c2 [|c3 q]]]; [simpl in E; congruence|simpl in E; congruence| |].
        - simpl in E. injection E as _ _ _ E. rewrite E. right. left.
        - simpl in E. injection E as _ _ _ _ E. rewrite E. apply elem_of_app. right. right. right. left. }
      apply elem_of_app in Hin as [?|Hin]; [done|]. apply elem_of_cons in Hin as [?|?]; done.
  - intros c q s' E. eapply lit_then_none; [done|]. simpl in E. injection E as _ E.
    intros Hin. assert ("{"%char ∈ a ++ ARROW ++ b ++ "}"%char :: sfx) as Hin' by (unfold ARROW; simpl; rewrite E; apply elem_of_app; by right).
    apply elem_of_app in Hin' as [?|Hin']; [done|]. apply elem_of_app in Hin' as [Hin'|Hin'].
    + apply elem_of_list_In in Hin'. simpl in Hin'. intuition congruence.
    + apply elem_of_app in Hin' as [?|Hin']; [done|]. apply elem_of_cons in Hin' as [?|?]; done.
Qed.

Lemma repo_not_rooted s : repo_path (SLASH :: s) -> False.
Proof. unfold repo_path. simpl. intros H. inversion H. naive_solver. Qed.

Lemma glue_elem c pfx m sfx : c ∉ glue pfx m sfx -> (sfx = [] \/ exists s, sfx = SLASH :: s) -> c <> SLASH -> c ∉ pfx /\ c ∉ m /\ c ∉ sfx.
Proof. intros H [->|[s ->]] Hc; destruct m; simpl in H; set_solver. Qed.

Lemma path_join_glue pfx b sfx :
  (pfx = [] \/ exists d, pfx = d ++ [SLASH]) -> (sfx = [] \/ exists s, sfx = SLASH :: s) ->
  (b = [] -> pfx <> [] /\ sfx <> []) -> repo_path (glue pfx b sfx) ->
  path_join [pfx; b; sfx] = glue pfx b sfx.
Proof.
  intros Hp Hs Hb Hr.
  assert (exists t, path_join [pfx; b; sfx] = path_clean t /\ parts t = parts (glue pfx b sfx) /\
    has_prefix [SLASH] t = has_prefix [SLASH] (glue pfx b sfx)) as (t & -> & Ht & Hroot).
  { unfold path_join. destruct Hp as [->|[d ->]], Hs as [->|[s ->]], b as [|x b]; try naive_solver.
    - exists (x :: b). split; [done|]. simpl. by rewrite app_nil_r.
    - exists ((x :: b) ++ SLASH :: SLASH :: s). split; [done|]. simpl glue.
      change (x :: b ++ SLASH :: s) with ((x :: b) ++ SLASH :: s).
      change (SLASH :: SLASH :: s) with (SLASH :: [] ++ SLASH :: s).
      rewrite !parts_sep. done.
    - exists ((d ++ [SLASH]) ++ SLASH :: x :: b). split.
      + rewrite filter_cons_True by (destruct d; done). done.
      + simpl glue. rewrite app_nil_r. rewrite <- !app_assoc. change ([SLASH] ++ x :: b) with (SLASH :: x :: b).
        change ([SLASH] ++ SLASH :: x :: b) with (SLASH :: [] ++ SLASH :: x :: b).
        rewrite !parts_sep. split; [done|]. by destruct d.
    - exists ((d ++ [SLASH]) ++ SLASH :: SLASH :: s). split.
      + rewrite filter_cons_True by (destruct d; done). done.
      + simpl glue. rewrite <- !app_assoc. change ([SLASH] ++ SLASH :: SLASH :: s) with (SLASH :: [] ++ SLASH :: [] ++ SLASH :: s).
        change ([SLASH] ++ s) with (SLASH :: s). rewrite !parts_sep. split; [done|]. by destruct d.
    - exists ((d ++ [SLASH]) ++ SLASH :: (x :: b) ++ SLASH :: SLASH :: s). split.
      + rewrite filter_cons_True by (destruct d; done). done.
      + simpl glue. rewrite <- !app_assoc.
        change ([SLASH] ++ SLASH :: (x :: b) ++ SLASH :: SLASH :: s) with (SLASH :: [] ++ SLASH :: (x :: b) ++ SLASH :: [] ++ SLASH :: s).
        change ([SLASH] ++ x :: b ++ SLASH :: s) with (SLASH :: (x :: b) ++ SLASH :: s).
        rewrite !parts_sep. split; [done|]. by destruct d. }
  assert (parts (glue pfx b sfx) = split_char SLASH (glue pfx b sfx)) as Hps by by apply parts_repo.
  rewrite path_clean_parts.
  - rewrite Ht, Hps. apply join_split.
  - rewrite Ht, Hps. exact Hr.
  - rewrite Ht, Hps. apply split_char_not_nil.
  - rewrite Hroot. apply not_true_iff_false. intros (r & E)%has_prefix_true. rewrite E in Hr. by apply repo_not_rooted in Hr.
Qed.

Lemma get_filename_ok txt p : stands_for txt p -> get_filename txt = p.
Proof.
  intros [[-> H]|(from & H & Hf & Hp & Sf & Sp)]; [by apply get_filename_plain|].
  destruct H as [from to|pfx a b sfx Hpf Hsf Ha Hb].
  - by apply get_filename_whole.
  - unfold get_filename. destruct Sf as (F1&F2&F3), Sp as (P1&P2&P3).
    apply glue_elem in F1; [|done|done]. apply glue_elem in F3; [|done|done].
    apply glue_elem in P1; [|done|done]. apply glue_elem in P2; [|done|done]. apply glue_elem in P3; [|done|done].
    rewrite rename_re_parts by tauto. by apply path_join_glue.
Qed.

(** ** The converse: a name with an arrow is never taken as it is *)

Definition cost (l : list bytes) : nat := foldr (fun c n => S (length c) + n) 0 l.
Lemma join_cost l : length (join [SLASH] l) <= cost l - 1.
Proof.
  induction l as [|c [|d l] IH]; [simpl; lia|simpl; lia|].
  rewrite join_cons, !app_length. simpl in *. lia.
Qed.
Lemma split_cost s : cost (split_char SLASH s) = S (length s).
Proof.
  induction s as [|a s IH]; [done|]. simpl. case_bool_decide; simpl; [by rewrite IH|].
  destruct (split_char SLASH s); simpl in *; lia.
Qed.
Lemma cost_app a b : cost (a ++ b) = cost a + cost b.
Proof. induction a; simpl; lia. Qed.
Lemma cost_rev a : cost (rev a) = cost a.
Proof. induction a; [done|]. simpl. rewrite cost_app. simpl. lia. Qed.
Lemma clean_cost rooted l acc : cost (fold_left (clean_step rooted) l acc) <= cost l + cost acc.
Proof.
  revert acc. induction l as [|c l IH]; intros acc; simpl; [lia|].
  etrans; [apply IH|]. assert (cost (clean_step rooted acc c) <= S (length c) + cost acc); [|lia].
  unfold clean_step. destruct (beq c [] || beq c (B ".")); [lia|]. destruct (beq c (B "..")); [|simpl; lia].
  destruct acc as [|x r]; [destruct rooted; simpl; lia|]. destruct (beq x (B "..")); simpl; lia.
Qed.
Lemma path_clean_length s : s <> [] -> length (path_clean s) <= length s.
Proof.
  intros Hs. unfold path_clean.
  destruct (has_prefix [SLASH] s) eqn:Er.
  - apply has_prefix_true in Er as (r & ->). simpl app. cbn [split_char]. rewrite bool_decide_eq_true_2 by done.
    cbn [fold_left]. change (clean_step true [] []) with (@nil bytes).
    pose proof (join_cost (rev (fold_left (clean_step true) (split_char SLASH r) []))) as H1.
    rewrite cost_rev in H1. pose proof (clean_cost true (split_char SLASH r) []) as H2. rewrite split_cost in H2. simpl in *. lia.
  - pose proof (join_cost (rev (fold_left (clean_step false) (split_char SLASH s) []))) as H1.
    rewrite cost_rev in H1. pose proof (clean_cost false (split_char SLASH s) []) as H2. rewrite split_cost in H2.
    destruct (beq _ []); simpl in *; [destruct s; [done|simpl; lia]|lia].
Qed.
Lemma path_join_length a b c : length (path_join [a; b; c]) <= length a + length b + length c + 2.
Proof.
  unfold path_join. rewrite !filter_cons.
  repeat case_decide; rewrite ?filter_nil; simpl length; try lia;
   (etrans; [apply path_clean_length|simpl join; rewrite ?app_length; simpl; rewrite ?app_length; simpl; try lia]);
   simpl join; try done; intros E; by apply app_eq_nil in E as [? ?].
Qed.

Lemma rename_re_length s m1 m2 m3 m4 :
  rename_re s = Some (m1, (m2, (m3, m4))) -> length s = length m1 + length m2 + length m3 + length m4 + 6.
Proof.
  unfold rename_re. intros (s1 & -> & H1)%longest_some.
  unfold lit_then at 1 in H1. destruct (has_prefix (B "{") s1) eqn:E1; [|done].
  apply has_prefix_true in E1 as (r1 & ->). rewrite drop_app_len in H1.
  apply longest_some in H1 as (s2 & -> & H2). unfold lit_then at 1 in H2.
  destruct (has_prefix (B " => ") s2) eqn:E3; [|done].
  apply has_prefix_true in E3 as (r2 & ->). rewrite drop_app_len in H2.
  apply longest_some in H2 as (s3 & -> & H3). unfold lit_then in H3.
  destruct (has_prefix (B "}") s3) eqn:E4; [|done].
  apply has_prefix_true in E4 as (r3 & ->). rewrite drop_app_len in H3. injection H3 as ->.
  rewrite !app_length. simpl. lia.
Qed.

Lemma get_filename_arrow p : has_arrow p -> length (get_filename p) < length p.
Proof.
  intros (x & y & ->). unfold get_filename. destruct (rename_re (x ++ ARROW ++ y)) as [(m1 & m2 & m3 & m4)|] eqn:E.
  - apply rename_re_length in E. pose proof (path_join_length m1 m3 m4). lia.
  - change (B " => ") with ARROW. rewrite split_str_eq. destruct (cut ARROW (x ++ ARROW ++ y)) as [[u v]|] eqn:Ec.
    + apply cut_some in Ec. rewrite Ec. assert (forall n, exists w z, splitn (S n) ARROW v = w :: z /\ length w <= length v) as Hs.
      { intros [|n]; cbn [splitn]; [by exists v, []|]. destruct (cut ARROW v) as [[w z]|] eqn:Ev; [|by exists v, []].
        apply cut_some in Ev as ->. exists w, (splitn (S n) ARROW z). split; [done|]. rewrite app_length. lia. }
      destruct (Hs (length (u ++ ARROW ++ v))) as (w & z & -> & Hw). rewrite !app_length. simpl. lia.
    + exfalso. revert Ec. induction x as [|a x IH].
      * rewrite app_nil_l. by change (cut ARROW (ARROW ++ y)) with (Some (@nil ascii, drop 4 (ARROW ++ y))).
      * change ((a :: x) ++ ARROW ++ y) with (a :: (x ++ ARROW ++ y)). cbn [cut].
        destruct (has_prefix ARROW _); [done|]. destruct (cut ARROW (x ++ ARROW ++ y)) as [[]|]; [done|].
        intros _. apply IH; [|done]. destruct (rename_re (x ++ ARROW ++ y)) eqn:E'; [|done].
        exfalso. clear -E E'. unfold rename_re in *. simpl in E. by rewrite E' in E || (destruct (longest _ _) as [[]|]; done).
Qed.

Lemma get_filename_iff p : get_filename p = p <-> ~ has_arrow p.
Proof.
  split; [|apply get_filename_plain]. intros H Ha. apply get_filename_arrow in Ha. rewrite H in Ha. lia.
Qed.
