(** * Records per file: lemmas for C47-C52 *)
From Verif.Model Require Import Base GoStrings IncBlame Process CommitMeta FileInfo CodeInfo GenIgnore.
From Verif.Spec Require Import Text Records Regex.
From Verif.Proofs Require Import TextLemmas RegexProofs.
From Coq Require Import Lia.

Lemma generated_re_iff s : generated_re s = true <-> has_marker s.
Proof.
  unfold generated_re. rewrite !orb_true_iff, !contains_iff. unfold has_marker, markers. split.
  - intros [[[H|H]|H]|H]; eexists; (split; [|exact H]); set_solver.
  - intros (m & Hm & H). repeat (apply elem_of_cons in Hm as [->|Hm]; [tauto|]). by apply elem_of_nil in Hm.
Qed.

(** ** The callback *)

Section Callback.
Context {T : Type}.
Implicit Types (ls : list (sline T)).

Definition in_range (n : nat) (cur : Z) : bool := ((0 <=? cur - 1) && (cur - 1 <? Z.of_nat n))%Z.

Lemma process_line_length (st : list (sline T) * bool) c : length (process_line st c).1.1 = length st.1.
Proof.
  destruct st as [ls gen], c as [cur t]. simpl. destruct (_ && _); [|done].
  destruct (ls !! _) as [l|]; [|done]. destruct (sl_content l); [destruct (bl_comment _); [destruct (generated_re _)|]|]; simpl; by rewrite insert_length.
Qed.

(** Facts about a line after some calls: [l0] before, [l] after. *)
Definition line_after (l0 : sline T) (calls : list (Z * line_type)) (n : nat) (l : sline T) : Prop :=
  let a := sl_line l0 in let b := sl_line l in
  bl_name b = bl_name a /\ bl_email b = bl_email a /\ bl_date b = bl_date a /\ bl_sha b = bl_sha a /\
  (bl_comment b = true <-> bl_comment a = true \/ (Z.of_nat n, LComment) ∈ calls) /\
  (bl_code b = true <-> bl_code a = true \/ (Z.of_nat n, LCode) ∈ calls) /\
  (bl_blank b = true <-> bl_blank a = true \/ (Z.of_nat n, LBlank) ∈ calls).

Lemma line_after_refl l n : line_after l [] n l.
Proof. unfold line_after. set_solver. Qed.

Lemma process_line_line ls gen c i l0 :
  ls !! i = Some l0 -> exists l, (process_line (ls, gen) c).1.1 !! i = Some l /\ line_after l0 [c] (S i) l.
Proof.
  intros Hi. destruct c as [cur t].
  destruct (decide (cur = Z.of_nat (S i))) as [->|Hne].
  - assert (i < length ls) by by eapply lookup_lt_Some.
    cbn [process_line].
    replace (Z.to_nat (Z.of_nat (S i) - 1)) with i by lia.
    replace ((0 <=? Z.of_nat (S i) - 1) && (Z.of_nat (S i) - 1 <? Z.of_nat (length ls)))%Z with true
      by (symmetry; apply andb_true_iff; split; [apply Z.leb_le|apply Z.ltb_lt]; lia).
    rewrite Hi.
    assert (forall o, line_after l0 [(Z.of_nat (S i), t)] (S i) (SLine (set_flag t (sl_line l0)) o)) as Ha.
    { intros o. unfold line_after. cbn [sl_line]. destruct t; cbn [set_flag bl_name bl_email bl_date bl_sha bl_comment bl_code bl_blank];
        split_and!; try done; try (rewrite elem_of_list_singleton; split; [intros H1; auto; try (by left) |intros [?|?]; [done|congruence]]); set_solver. }
    destruct (sl_content l0) as [src|].
    + destruct (bl_comment _).
      * destruct (generated_re src); simpl; eexists; (split; [by apply list_lookup_insert|apply Ha]).
      * simpl. eexists; (split; [by apply list_lookup_insert|apply Ha]).
    + simpl. eexists; (split; [by apply list_lookup_insert|apply Ha]).
  - assert ((process_line (ls, gen) (cur, t)).1.1 !! i = Some l0) as Hk.
    { cbn [process_line]. destruct ((0 <=? cur - 1) && (cur - 1 <? Z.of_nat (length ls)))%Z eqn:E; [|done].
      apply andb_true_iff in E as [E1 E2]. apply Z.leb_le in E1. 
      destruct (ls !! Z.to_nat (cur - 1)) as [l1|]; [|done].
      assert (Z.to_nat (cur - 1) <> i) by lia.
      destruct (sl_content l1); [destruct (bl_comment _); [destruct (generated_re _)|]|]; simpl; by rewrite list_lookup_insert_ne. }
    exists l0. split; [done|]. unfold line_after. split_and!; try done; rewrite elem_of_list_singleton; (split; [by left|intros [?|[= ? ?]]; congruence]).
Qed.

Lemma line_after_trans l0 l1 l2 c1 c2 n : line_after l0 c1 n l1 -> line_after l1 c2 n l2 -> line_after l0 (c1 ++ c2) n l2.
Proof.
  intros (H1&H2&H3&H4&H5&H6&H7) (K1&K2&K3&K4&K5&K6&K7). unfold line_after.
  rewrite K1, K2, K3, K4, K5, K6, K7, H5, H6, H7, !elem_of_app. tauto.
Qed.

Lemma calls_line calls ls gen i l0 :
  ls !! i = Some l0 ->
  exists l, (fold_left (fun st c => (process_line st c).1) calls (ls, gen)).1 !! i = Some l /\ line_after l0 calls (S i) l.
Proof.
  revert ls gen l0. induction calls as [|c calls IH]; intros ls gen l0 Hi; cbn [fold_left].
  - exists l0. split; [done|apply line_after_refl].
  - destruct (process_line_line ls gen c i l0 Hi) as (l1 & H1 & A1).
    destruct (process_line (ls, gen) c).1 as [ls1 gen1]. simpl in H1.
    destruct (IH ls1 gen1 l1 H1) as (l & H2 & A2). exists l. split; [done|]. by apply (line_after_trans _ l1 _ [c] calls).
Qed.

Lemma calls_length calls ls gen :
  length (fold_left (fun st c => (process_line st c).1) calls (ls, gen)).1 = length ls.
Proof.
  revert ls gen. induction calls as [|c calls IH]; intros ls gen; cbn [fold_left]; [done|].
  pose proof (process_line_length (ls, gen) c) as H. destruct (process_line (ls, gen) c).1 as [ls1 gen1]. rewrite IH. exact H.
Qed.

(** The generated flag: a content that was not looked at yet belongs to a line not yet reported as a comment. *)
Definition content_inv (cs : list bytes) (done : list (Z * line_type)) (ls : list (sline T)) (gen : bool) : Prop :=
  length ls = length cs /\
  (forall i l c, ls !! i = Some l -> cs !! i = Some c ->
     (sl_content l = Some c /\ bl_comment (sl_line l) = false \/ sl_content l = None /\ bl_comment (sl_line l) = true) /\
     (bl_comment (sl_line l) = true <-> (Z.of_nat (S i), LComment) ∈ done)) /\
  (gen = true <-> exists i c, cs !! i = Some c /\ (Z.of_nat (S i), LComment) ∈ done /\ has_marker c).

Lemma process_line_in ls gen i t l :
  i < length ls -> ls !! i = Some l ->
  let b := set_flag t (sl_line l) in
  (process_line (ls, gen) (Z.of_nat (S i), t)).1.1 = <[i := SLine b (if bl_comment b then None else sl_content l)]> ls /\
  (process_line (ls, gen) (Z.of_nat (S i), t)).1.2 = gen || match sl_content l with Some src => bl_comment b && generated_re src | None => false end.
Proof.
  intros Hi Hl. cbn zeta. cbn [process_line].
  replace (Z.to_nat (Z.of_nat (S i) - 1)) with i by lia.
  replace ((0 <=? Z.of_nat (S i) - 1) && (Z.of_nat (S i) - 1 <? Z.of_nat (length ls)))%Z with true
    by (symmetry; apply andb_true_iff; split; [apply Z.leb_le|apply Z.ltb_lt]; lia).
  rewrite Hl. destruct (sl_content l) as [src|] eqn:Ec.
  - destruct (bl_comment _).
    + destruct (generated_re src); simpl; by rewrite ?orb_true_r, ?orb_false_r.
    + simpl. by rewrite ?orb_false_r.
  - simpl. rewrite orb_false_r. by destruct (bl_comment _).
Qed.

Lemma set_flag_comment t (l : bline T) : bl_comment (set_flag t l) = true <-> bl_comment l = true \/ t = LComment.
Proof. destruct t; simpl; intuition congruence. Qed.

Lemma process_line_inv cs d ls gen c :
  content_inv cs d ls gen ->
  content_inv cs (d ++ [c]) (process_line (ls, gen) c).1.1 (process_line (ls, gen) c).1.2.
Proof.
  intros (Hlen & Hl & Hg). destruct c as [cur t]. 
  assert (Hcase : (exists i, i < length ls /\ cur = Z.of_nat (S i)) \/ ~ (exists i, i < length ls /\ cur = Z.of_nat (S i))).
  { destruct (decide (1 <= cur <= Z.of_nat (length ls))%Z); [left; exists (Z.to_nat (cur - 1)); lia|right; intros (i & ? & ?); lia]. }
  destruct Hcase as [(i & Hi & ->)|Hout].
  2:{ assert (Hid : (process_line (ls, gen) (cur, t)).1 = (ls, gen)).
      { cbn [process_line]. destruct ((0 <=? cur - 1) && (cur - 1 <? Z.of_nat (length ls)))%Z eqn:E; [|done].
        exfalso. apply Hout. apply andb_true_iff in E as [E1 E2]. apply Z.leb_le in E1. apply Z.ltb_lt in E2.
        exists (Z.to_nat (cur - 1)). lia. }
      rewrite Hid. cbn [fst snd]. split; [done|]. split.
      - intros i l c H1 H2. destruct (Hl i l c H1 H2) as [A B]. split; [done|]. rewrite B, elem_of_app, elem_of_list_singleton.
        split; [by left|]. intros [?|[= E _]]; [done|]. exfalso. apply Hout. exists i. split; [by eapply lookup_lt_Some|done].
      - rewrite Hg. split; intros (i & c & H1 & H2 & H3); exists i, c; (split; [done|split; [|done]]).
        + apply elem_of_app. by left.
        + apply elem_of_app in H2 as [?|H2]; [done|]. apply elem_of_list_singleton in H2 as [= E _].
          exfalso. apply Hout. exists i. split; [rewrite Hlen; by eapply lookup_lt_Some|done]. }
  destruct (lookup_lt_is_Some_2 ls i Hi) as [l Hil].
  destruct (lookup_lt_is_Some_2 cs i) as [c Hic]; [by rewrite <- Hlen|].
  destruct (Hl i l c Hil Hic) as [A B].
  destruct (process_line_in ls gen i t l Hi Hil) as [E1 E2].
  set (b := set_flag t (sl_line l)) in *.
  assert (Hb : bl_comment b = true <-> (Z.of_nat (S i), LComment) ∈ d ++ [(Z.of_nat (S i), t)]).
  { unfold b. rewrite set_flag_comment, B, elem_of_app, elem_of_list_singleton. split; (intros [?|E]; [by left|right; congruence]). }
  rewrite E1, E2. split; [by rewrite insert_length|]. split.
  - intros j l1 c1 H1 H2. destruct (decide (j = i)) as [->|Hne].
    + rewrite list_lookup_insert in H1 by done. injection H1 as <-. cbn [sl_line sl_content].
      rewrite Hic in H2. injection H2 as <-. split; [|exact Hb].
      destruct (bl_comment b) eqn:Eb; [right; by split|left]. split; [|done].
      destruct A as [[A _]|[_ A]]; [done|]. assert (bl_comment b = true) by (unfold b; rewrite set_flag_comment; by left). congruence.
    + rewrite list_lookup_insert_ne in H1 by done. destruct (Hl j l1 c1 H1 H2) as [A' B']. split; [done|].
      rewrite B', elem_of_app, elem_of_list_singleton. split; [by left|]. intros [?|[= ? ?]]; [done|]. lia.
  - rewrite orb_true_iff, Hg. split.
    + intros [(j & c1 & H1 & H2 & H3)|H].
      * exists j, c1. split; [done|]. split; [|done]. apply elem_of_app. by left.
      * destruct A as [[A Ac]|[A _]]; rewrite A in H; [|done]. apply andb_true_iff in H as [H1 H2].
        exists i, c. split; [done|]. split; [by apply Hb|by apply generated_re_iff].
    + intros (j & c1 & H1 & H2 & H3). apply elem_of_app in H2 as [H2|H2]; [left; by exists j, c1|].
      apply elem_of_list_singleton in H2 as [= E <-]. assert (j = i) as -> by lia. rewrite Hic in H1. injection H1 as <-.
      destruct A as [[A Ac]|[A Ac]].
      * right. rewrite A. apply andb_true_iff. split; [unfold b; rewrite set_flag_comment; by right|by apply generated_re_iff].
      * left. exists i, c. split; [done|]. split; [by apply B|done].
Qed.

Lemma calls_inv cs calls d ls gen :
  content_inv cs d ls gen ->
  let st := fold_left (fun st c => (process_line st c).1) calls (ls, gen) in content_inv cs (d ++ calls) st.1 st.2.
Proof.
  revert d ls gen. induction calls as [|c calls IH]; intros d ls gen H; cbn [fold_left]; [by rewrite app_nil_r|].
  apply process_line_inv with (c := c) in H. destruct (process_line (ls, gen) c).1 as [ls1 gen1].
  apply IH in H. by rewrite <- app_assoc in H.
Qed.
End Callback.

(** ** Limits *)

Section Info.
Context {L : Type} (cl : classifiers L).

Definition cache_ok (cache : gmap bytes bytes) : Prop := forall p r, cache !! p = Some r -> r = check_file_path_uncached cl p.

Lemma cache_ok_empty : cache_ok ∅.
Proof. intros p r H. by rewrite lookup_empty in H. Qed.

Lemma check_cached cache p : cache_ok cache ->
  (check_file_path cl cache p).1 = check_file_path_uncached cl p /\ cache_ok (check_file_path cl cache p).2.
Proof.
  intros H. unfold check_file_path. destruct (cache !! p) as [r|] eqn:E; simpl.
  - split; [by apply H|done].
  - split; [done|]. intros q r Hq. apply lookup_insert_Some in Hq as [[<- <-]|[_ Hq]]; [done|by apply H].
Qed.

(** The same without the cache. *)
Definition pure_info (p content : bytes) (lines : list bytes) : outcome (info L) := omap_o fst (get_info cl ∅ p content lines).

Lemma get_info_cached cache p content lines : cache_ok cache ->
  match get_info cl cache p content lines with
  | Ret (i, c') => pure_info p content lines = Ret i /\ cache_ok c'
  | Err e => pure_info p content lines = Err e
  | Panic m => pure_info p content lines = Panic m
  end.
Proof.
  intros Hc. unfold pure_info, get_info. destruct (max_file_size <? blen content)%N; [done|].
  destruct (if possible_license p then _ else _) as [[l|]|e|m]; simpl; [done| |done|done].
  destruct (check_cached cache p Hc) as [H1 H2].
  destruct (check_cached ∅ p cache_ok_empty) as [H3 _].
  destruct (check_file_path cl cache p) as [s c1], (check_file_path cl ∅ p) as [s' c2]. simpl in *. subst.
  case_bool_decide; [done|]. destruct (_ <? _)%N; [done|]. destruct (first_long_line lines); [done|].
  case_bool_decide; done.
Qed.

Lemma first_long_none ls : first_long_line ls = None <-> forall i l, ls !! i = Some l -> (N.of_nat (length l) <= 1096)%N.
Proof.
  induction ls as [|x ls IH]; simpl; [split; [intros _ i l; by rewrite lookup_nil|done]|].
  destruct (max_bytes_per_line <? blen x)%N eqn:E.
  - split; [done|]. intros H. specialize (H 0 x eq_refl). apply N.ltb_lt in E. unfold max_bytes_per_line, blen in E. lia.
  - apply N.ltb_ge in E. unfold max_bytes_per_line, blen in E. rewrite IH. split.
    + intros H [|i] l; [by intros [= <-]|apply H].
    + intros H i l Hi. by apply (H (S i)).
Qed.
Lemma first_long_some ls n : first_long_line ls = Some n ->
  exists i l, ls !! i = Some l /\ n = N.of_nat (length l) /\ (1096 < N.of_nat (length l))%N /\
    forall j l', j < i -> ls !! j = Some l' -> (N.of_nat (length l') <= 1096)%N.
Proof.
  induction ls as [|x ls IH]; simpl; [done|]. destruct (max_bytes_per_line <? blen x)%N eqn:E.
  - intros [= <-]. apply N.ltb_lt in E. exists 0, x. split; [done|]. split; [done|]. split; [exact E|]. intros j l' Hj. lia.
  - intros (i & l & H1 & H2 & H3 & H4)%IH. apply N.ltb_ge in E. exists (S i), l. split; [done|]. split; [done|]. split; [done|].
    intros [|j] l' Hj; simpl; [intros [= <-]; exact E|]. apply H4. lia.
Qed.

Lemma not_src p : (forall r, p <> B "src/" ++ r) <-> has_prefix (B "src/") p = false.
Proof.
  split.
  - intros H. apply not_true_iff_false. intros (r & E)%has_prefix_true. by apply (H r).
  - intros H r ->. by rewrite has_prefix_app in H.
Qed.

Section One.
Context (p content : bytes) (lines : list bytes).
Notation viol := (violated cl p content lines).

Lemma violated_7 r : viol 7 r -> exists i l,
  lines !! i = Some l /\ (1096 < N.of_nat (length l))%N /\
  (forall j l', j < i -> lines !! j = Some l' -> (N.of_nat (length l') <= 1096)%N) /\
  r = B "File has a line width of " ++ show (N.of_nat (length l)) ++ B " which is greater than max of 1096".
Proof. inversion 1; subst. eexists _, _. eauto. Qed.

Lemma violated_fun k r r' : viol k r -> viol k r' -> r = r'.
Proof.
  intros H H'. destruct (decide (k = 7)) as [->|Hk].
  - apply violated_7 in H as (i & l & H1 & H2 & H3 & ->). apply violated_7 in H' as (i' & l' & H1' & H2' & H3' & ->).
    assert (i = i') as <-; [|congruence].
    destruct (lt_eq_lt_dec i i') as [[Hlt| ->]|Hlt]; [|done|].
    + specialize (H3' i l Hlt H1). lia.
    + specialize (H3 i' l' Hlt H1'). lia.
  - inversion H; subst; inversion H'; subst; done.
Qed.

Lemma first_violated_fun r r' : first_violated cl p content lines r -> first_violated cl p content lines r' -> r = r'.
Proof.
  intros (k & H1 & H2) (k' & H3 & H4). destruct (lt_eq_lt_dec k k') as [[Hlt| ->]|Hlt].
  - by destruct (H4 k r Hlt).
  - by eapply violated_fun.
  - by destruct (H2 k' r' Hlt).
Qed.

Lemma viol_0 r : viol 0 r -> (1000000 < N.of_nat (length content))%N.
Proof. by inversion 1. Qed.
Lemma viol_1 r : viol 1 r -> is_license cl p content.
Proof. by inversion 1. Qed.
Lemma viol_2 r : viol 2 r -> cl_config cl p = true.
Proof. by inversion 1. Qed.
Lemma viol_3 r : viol 3 r -> cl_dot cl p = true.
Proof. by inversion 1. Qed.
Lemma viol_4 r : viol 4 r -> ignored p = true.
Proof. inversion 1. by apply ignored_iff. Qed.
Lemma viol_5 r : viol 5 r -> is_vendored cl p = true.
Proof. inversion 1; subst. unfold is_vendored. rewrite H0. rewrite not_src in H1. by rewrite H1. Qed.
Lemma viol_6 r : viol 6 r -> (40000 < N.of_nat (length lines))%N.
Proof. by inversion 1. Qed.
Lemma viol_7 r : viol 7 r -> first_long_line lines <> None.
Proof. inversion 1; subst. rewrite first_long_none. intros Hn. specialize (Hn _ _ H0). lia. Qed.
Lemma viol_8 r : viol 8 r -> cl_language cl p content = [].
Proof. by inversion 1. Qed.
Lemma viol_9 k r : viol (9 + k) r -> False.
Proof. by inversion 1. Qed.

Lemma pure_info_limits i :
  pure_info p content lines = Ret i ->
  (i_skip i <> [] -> first_violated cl p content lines (i_skip i)) /\ (i_skip i = [] -> none_violated cl p content lines /\ i_license i = None /\ i_language i = cl_language cl p content /\ i_language i <> []).
Proof.
  unfold pure_info, get_info.
  destruct (max_file_size <? blen content)%N eqn:E0.
  { intros [= <-]. simpl. apply N.ltb_lt in E0. split; [|done]. intros _. exists 0. split; [by apply v_size|]. lia. }
  assert (N0 : forall r, ~ viol 0 r) by (intros r H%viol_0; apply N.ltb_ge in E0; unfold max_file_size, blen in E0; lia).
  clear E0.
  destruct (if possible_license p then _ else _) as [lic|e|m] eqn:E1; simpl; [|done|done].
  destruct lic as [l|].
  { intros [= <-]. simpl. split; [|done]. intros _. exists 1. split.
    - apply v_license. destruct (possible_license p) eqn:Ep; [|done]. split; [by apply license_iff|]. exists l.
      destruct (cl_license cl p content); congruence.
    - intros [|j] r Hj; [apply N0|lia]. }
  assert (N1 : forall r, ~ viol 1 r).
  { intros r (H1 & l & H2)%viol_1. apply license_iff in H1. rewrite H1, H2 in E1. done. }
  clear E1. destruct (check_cached ∅ p cache_ok_empty) as [H3 _]. destruct (check_file_path cl ∅ p) as [sk c2]. simpl in H3. subst.
  unfold check_file_path_uncached.
  destruct (cl_config cl p) eqn:E2.
  { intros [= <-]. simpl. split; [|done]. intros _. exists 2. split; [by apply v_config|].
    intros [|[|j]] r Hj; [apply N0|apply N1|lia]. }
  assert (N2 : forall r, ~ viol 2 r) by (intros r H%viol_2; congruence).
  destruct (cl_dot cl p) eqn:E3.
  { intros [= <-]. simpl. split; [|done]. intros _. exists 3. split; [by apply v_dot|].
    intros [|[|[|j]]] r Hj; [apply N0|apply N1|apply N2|lia]. }
  assert (N3 : forall r, ~ viol 3 r) by (intros r H%viol_3; congruence).
  destruct (ignored p) eqn:E4.
  { intros [= <-]. simpl. split; [|done]. intros _. exists 4. split; [by apply v_ignored, ignored_iff|].
    intros [|[|[|[|j]]]] r Hj; [apply N0|apply N1|apply N2|apply N3|lia]. }
  assert (N4 : forall r, ~ viol 4 r) by (intros r H%viol_4; congruence).
  destruct (is_vendored cl p) eqn:E5.
  { intros [= <-]. simpl. split; [|done]. intros _. exists 5. split.
    - unfold is_vendored in E5. destruct (cl_vendor cl p) eqn:Ev; [|done]. apply v_vendored; [done|].
      apply not_src. by destruct (has_prefix (B "src/") p).
    - intros [|[|[|[|[|j]]]]] r Hj; [apply N0|apply N1|apply N2|apply N3|apply N4|lia]. }
  assert (N5 : forall r, ~ viol 5 r) by (intros r H%viol_5; congruence).
  rewrite bool_decide_eq_false_2 by tauto.
  destruct (max_line_per_file <? N.of_nat (length lines))%N eqn:E6.
  { intros [= <-]. simpl. split; [|done]. intros _. exists 6. apply N.ltb_lt in E6. split; [by apply v_lines|].
    intros [|[|[|[|[|[|j]]]]]] r Hj; [apply N0|apply N1|apply N2|apply N3|apply N4|apply N5|lia]. }
  assert (N6 : forall r, ~ viol 6 r) by (intros r H%viol_6; apply N.ltb_ge in E6; unfold max_line_per_file in E6; lia).
  destruct (first_long_line lines) as [n|] eqn:E7.
  { intros [= <-]. simpl. split; [|done]. intros _. exists 7. apply first_long_some in E7 as (k & l & H1 & -> & H2 & H4). split.
    - by apply (v_width cl p content lines k l).
    - intros [|[|[|[|[|[|[|j]]]]]]] r Hj; [apply N0|apply N1|apply N2|apply N3|apply N4|apply N5|apply N6|lia]. }
  assert (N7 : forall r, ~ viol 7 r) by (intros r H%viol_7; congruence).
  case_bool_decide as E8.
  { intros [= <-]. simpl. split; [|done]. intros _. exists 8. split; [by apply v_language|].
    intros [|[|[|[|[|[|[|[|j]]]]]]]] r Hj; [apply N0|apply N1|apply N2|apply N3|apply N4|apply N5|apply N6|apply N7|lia]. }
  intros [= <-]. simpl. split; [done|]. intros _. split; [|done].
  intros [|[|[|[|[|[|[|[|[|k]]]]]]]]] r H; [by eapply N0|by eapply N1|by eapply N2|by eapply N3|by eapply N4|by eapply N5|by eapply N6|by eapply N7| |by apply viol_9 in H].
  apply viol_8 in H. congruence.
Qed.

(** No license detector error: there is a result. *)
Lemma pure_info_total : (forall e, cl_license cl p content <> Err e) -> (forall m, cl_license cl p content <> Panic m) -> exists i, pure_info p content lines = Ret i.
Proof.
  intros H1 H2. unfold pure_info, get_info. destruct (_ <? _)%N; [by eexists|].
  assert (exists l, (if possible_license p then match cl_license cl p content with Ret l => Ret l | Err e => Panic e | Panic m => Panic m end else Ret None) = Ret l) as [l ->].
  { destruct (possible_license p); [|by eexists]. destruct (cl_license cl p content); [by eexists|naive_solver|naive_solver]. }
  simpl. destruct l; [by eexists|]. destruct (check_file_path _ _ _). case_bool_decide; [by eexists|]. destruct (_ <? _)%N; [by eexists|].
  destruct (first_long_line lines); [by eexists|]. case_bool_decide; by eexists.
Qed.
End One.
End Info.

(** ** Files of a commit *)

Section Files.
Context {T L : Type} (zt : T) (cl : classifiers L) (count : bytes -> bytes -> bytes -> list (Z * line_type) * totals).
Context (meta : gmap bytes (mcommit T)) (commit : mcommit T).

(** The record of a file, without the cache. *)
Definition record_of (p : bytes) (b : blame) (f : cfile) : outcome (bresult T L) :=
  if decide (cf_status f = Removed) then Ret (BResult commit [] p [] 0 zero_totals removed_file None (cf_status f))
  else
    do i <- pure_info cl p (file_content b) (file_lines b);
    Ret (if bool_decide (i_skip i <> []) then BResult commit (i_language i) p [] 0 zero_totals (i_skip i) (i_license i) (cf_status f)
         else code_info_file zt count meta p b (BResult commit (i_language i) p [] 0 zero_totals [] (i_license i) (cf_status f))).

Definition kept (pb : bytes * blame) : Prop := pb.1 <> [] /\ is_Some (mc_files commit !! pb.1).
#[global] Instance kept_dec pb : Decision (kept pb).
Proof. unfold kept. apply _. Defined.

Definition record_rel (pb : bytes * blame) (r : bresult T L) : Prop :=
  exists f, mc_files commit !! pb.1 = Some f /\ record_of pb.1 pb.2 f = Ret r.

Lemma step_ok cache res pb c' res' :
  cache_ok cl cache -> code_info_step zt cl count meta commit (cache, res) pb = Ret (c', res') ->
  cache_ok cl c' /\ ((kept pb /\ exists r, res' = res ++ [r] /\ record_rel pb r) \/ (~ kept pb /\ res' = res)).
Proof.
  intros Hc. destruct pb as [p b]. unfold code_info_step. unfold beq. case_bool_decide as Ep.
  - intros [= <- <-]. split; [done|]. right. split; [|done]. intros [H _]. done.
  - destruct (mc_files commit !! p) as [f|] eqn:Ef.
    2:{ intros [= <- <-]. split; [done|]. right. split; [|done]. intros [_ H]. simpl in H. rewrite Ef in H. by apply is_Some_None in H. }
    assert (kept (p, b)) by (split; [done|by eexists]).
    case_decide as Er.
    + intros [= <- <-]. split; [done|]. left. split; [done|]. eexists. split; [reflexivity|]. exists f. split; [done|].
      unfold record_of. by rewrite decide_True.
    + pose proof (get_info_cached cl cache p (file_content b) (file_lines b) Hc) as Hg.
      destruct (get_info cl cache p (file_content b) (file_lines b)) as [[i c1]|e|m]; simpl; [|done|done].
      destruct Hg as [Hp Hc1]. case_bool_decide as Es; intros [= <- <-]; (split; [done|]); left; (split; [done|]); eexists; (split; [reflexivity|]); exists f; (split; [done|]);
        unfold record_of; cbn [fst snd]; rewrite decide_False by done; rewrite Hp; cbn [obind]; [rewrite bool_decide_eq_true_2 by exact Es; reflexivity|rewrite bool_decide_eq_false_2 by (intros Hx; by apply Hx); reflexivity].
Qed.

Lemma steps_ok l cache res c' res' :
  cache_ok cl cache -> ofold (code_info_step zt cl count meta commit) (cache, res) l = Ret (c', res') ->
  cache_ok cl c' /\ exists new, res' = res ++ new /\ Forall2 record_rel (filter kept l) new.
Proof.
  revert cache res. induction l as [|pb l IH]; intros cache res Hc.
  - intros [= <- <-]. split; [done|]. exists []. rewrite app_nil_r. split; [done|constructor].
  - cbn [ofold]. destruct (code_info_step zt cl count meta commit (cache, res) pb) as [[c1 res1]|e|m] eqn:E; cbn [obind]; [|done|done].
    apply step_ok in E as [Hc1 HE]; [|done]. intros H. apply IH in H as (Hc' & new & -> & Hf); [|done]. split; [done|].
    rewrite filter_cons. destruct HE as [[Hk (r & -> & Hr)]|[Hk ->]].
    + exists (r :: new). rewrite <- app_assoc. split; [done|]. rewrite decide_True by done. by constructor.
    + exists new. split; [done|]. by rewrite decide_False.
Qed.

Lemma steps_total l cache res :
  cache_ok cl cache -> (forall p c, exists l, cl_license cl p c = Ret l) ->
  exists x, ofold (code_info_step zt cl count meta commit) (cache, res) l = Ret x.
Proof.
  intros Hc Hl. revert cache res Hc. induction l as [|[p b] l IH]; intros cache res Hc; [by eexists|].
  cbn [ofold]. assert (exists c1 res1, code_info_step zt cl count meta commit (cache, res) (p, b) = Ret (c1, res1)) as (c1 & res1 & E).
  { unfold code_info_step. destruct (beq p []); [by eexists _, _|]. destruct (mc_files commit !! p) as [f|]; [|by eexists _, _].
    case_decide; [by eexists _, _|]. pose proof (get_info_cached cl cache p (file_content b) (file_lines b) Hc) as Hg.
    destruct (pure_info_total cl p (file_content b) (file_lines b)) as [i Hi].
    { intros e He. destruct (Hl p (file_content b)). congruence. }
    { intros e He. destruct (Hl p (file_content b)). congruence. }
    destruct (get_info cl cache p _ _) as [[i1 c1]|e|m]; [|rewrite Hi in Hg; done|rewrite Hi in Hg; done].
    simpl. case_bool_decide; by eexists _, _. }
  rewrite E. cbn [obind]. apply step_ok in E as [Hc1 _]; [|done]. by apply IH.
Qed.
End Files.
