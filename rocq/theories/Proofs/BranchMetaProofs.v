(** * Parsing the list of branches: proofs for C24 *)
From Verif.Model Require Import Base GoStrings GoSort CommitMeta BranchMeta.
From Verif.Spec Require Import Text GitLog Refs.
From Verif.Proofs Require Import TextLemmas SortLemmas RecordProofs TrimProofs.
From Coq Require Import Lia.

Lemma graphic_not_space c : graphic c = true -> is_space c = false.
Proof.
  intros H. unfold is_space. repeat (rewrite bool_decide_eq_false_2; [|intros ->; vm_compute in H; discriminate H]). done.
Qed.
Lemma graphic_not c d : graphic c = true -> graphic d = false -> c <> d.
Proof. intros H1 H2 ->. by rewrite H1 in H2. Qed.
Lemma hex_graphic c : hex_char c = true -> graphic c = true.
Proof.
  unfold hex_char, graphic. intros H. apply andb_true_iff. apply orb_true_iff in H as [H|H]; apply andb_true_iff in H as [H1 H2];
    apply N.leb_le in H1; apply N.leb_le in H2; (split; [apply N.leb_le; lia|apply negb_true_iff, N.eqb_neq; lia]).
Qed.
Lemma hex_not_at s : forallb hex_char s = true -> "@"%char ∉ s.
Proof. intros H Hin. rewrite forallb_forall in H. apply elem_of_list_In in Hin. specialize (H _ Hin). vm_compute in H. discriminate H. Qed.
Lemma no_nl_graphic s : forallb graphic s = true -> NL ∉ s.
Proof. intros H Hin. rewrite forallb_forall in H. apply elem_of_list_In in Hin. specialize (H _ Hin). vm_compute in H. discriminate H. Qed.

Lemma hex_solid c : hex_char c = true -> solid c = true.
Proof.
  intros H. unfold solid. rewrite (graphic_not_space c) by by apply hex_graphic. unfold hex_char, high in *. cbn [negb andb]. apply negb_true_iff, N.leb_gt.
  apply orb_true_iff in H as [H|H]; apply andb_true_iff in H as [H1 H2]; apply N.leb_le in H1; apply N.leb_le in H2; lia.
Qed.
Lemma bare_id s : commit_id s -> bare s.
Proof. intros [_ H]. apply bare_solid. apply Forall_forall. intros c Hc. rewrite forallb_forall in H. apply hex_solid, H. by apply elem_of_list_In. Qed.

Definition pre3 (s : bytes) : bool := match s with x :: y :: z :: _ => bool_decide (x = "@"%char) && bool_decide (y = "@"%char) && bool_decide (z = "@"%char) | _ => false end.
Lemma bd_sym (a b : ascii) : bool_decide (a = b) = bool_decide (b = a).
Proof. apply bool_decide_ext. split; intros ->; done. Qed.
Lemma has_prefix_sep s : has_prefix SEP s = pre3 s.
Proof.
  destruct s as [|x [|y [|z s]]]; cbn; [done| | |].
  - by rewrite andb_false_r.
  - by rewrite !andb_false_r.
  - rewrite andb_true_r, andb_assoc. by rewrite (bd_sym _ x), (bd_sym _ y), (bd_sym _ z).
Qed.
(** The first separator after a name. *)
Lemma cut_name n s : (forall x y, n <> x ++ B "@@@" ++ y) -> (forall x, n <> x ++ B "@") -> cut SEP (n ++ SEP ++ s) = Some (n, s).
Proof.
  induction n as [|a n IH]; intros H1 H2; [by destruct s|].
  assert (IH' : cut SEP (n ++ SEP ++ s) = Some (n, s)).
  { apply IH; [intros x y ->; by apply (H1 (a :: x) y)|intros x ->; by apply (H2 (a :: x))]. }
  assert (E : has_prefix SEP ((a :: n) ++ SEP ++ s) = false).
  { rewrite has_prefix_sep. destruct n as [|b [|c n]]; cbn.
    - destruct (bool_decide_reflect (a = "@"%char)) as [->|]; [by destruct (H2 [])|done].
    - destruct (bool_decide_reflect (b = "@"%char)) as [->|]; [by destruct (H2 [a])|by rewrite andb_false_r].
    - destruct (bool_decide_reflect (a = "@"%char)) as [->|]; [|done]. destruct (bool_decide_reflect (b = "@"%char)) as [->|]; [|done].
      destruct (bool_decide_reflect (c = "@"%char)) as [->|]; [|done]. by destruct (H1 [] n). }
  cbn [app] in E |- *. cbn [cut]. rewrite E. change (n ++ "@"%char :: "@"%char :: "@"%char :: s) with (n ++ SEP ++ s) in *. cbn [app] in IH'. by rewrite IH'.
Qed.
Lemma cut_hex n s : forallb hex_char n = true -> cut SEP (n ++ SEP ++ s) = Some (n, s).
Proof.
  intros H. pose proof (hex_not_at n H) as Hat. apply cut_name; intros x; [intros y|]; intros ->; apply Hat; apply elem_of_app; right; [apply elem_of_app; left; left|left].
Qed.

Section Get.
Context {T : Type} (pd : bytes -> option T).
Notation line_of := (ref_of_line pd).

Lemma no_sep_shown remote n : no_separator n -> n <> [] -> (forall x y, shown remote n <> x ++ B "@@@" ++ y) /\ (forall x, shown remote n <> x ++ B "@").
Proof.
  intros [H1 H2] Hn. destruct remote; [|done]. unfold shown. split.
  - intros x y E. destruct x as [|c1 [|c2 [|c3 [|c4 [|c5 [|c6 [|c7 x]]]]]]]; cbn in E; try discriminate E.
    injection E as _ _ _ _ _ _ _ E. exact (H1 x y E).
  - intros x E. destruct x as [|c1 [|c2 [|c3 [|c4 [|c5 [|c6 [|c7 x]]]]]]]; cbn in E; try discriminate E.
    injection E as _ _ _ _ _ _ _ E. exact (H2 x E).
Qed.
Lemma line_parts remote r : commit_id (rf_commit r) -> date_text (rf_date r) -> trim_space (ref_line remote r) = ref_line remote r /\
  exists c l, ref_line remote r = c :: l /\ bool_decide (c = "("%char) = false.
Proof.
  intros [Hc1 Hc2] (_ & Hd1 & Hd2). unfold ref_line. destruct (rf_commit r) as [|c l] eqn:E; [done|].
  cbn in Hc2. apply andb_true_iff in Hc2 as [Hh _]. split.
  - apply trim_bare. replace ((c :: l) ++ B "@@@" ++ shown remote (rf_name r) ++ B "@@@" ++ rf_date r) with
      (c :: (l ++ B "@@@" ++ shown remote (rf_name r) ++ B "@@") ++ "@"%char :: rf_date r) by (cbn [app]; rewrite <- !app_assoc; reflexivity).
    apply bare_line; [by apply hex_solid|reflexivity|exact Hd1|exact Hd2].
  - eexists c, _. split; [reflexivity|]. apply bool_decide_eq_false_2. intros ->. vm_compute in Hh. discriminate Hh.
Qed.

(** What a branch contributes to the list. *)
Definition entry (include : bool) (dflt : bytes) (r : ref) (t : T) : option (branch_ref T) :=
  if decide (rf_name r = B "HEAD" \/ (include = false /\ rf_name r = dflt)) then None else Some (BranchRef (rf_name r) (rf_commit r) t).
Lemma parse_line remote include dflt r t : wf_ref r -> pd (rf_date r) = Some t ->
  line_of remote include dflt (ref_line remote r) = Ret (entry include dflt r t).
Proof.
  intros (Hc & Hn & Hs & Hd) Ht. destruct (line_parts remote r Hc Hd) as (E & c & l & Ec & Ep). unfold ref_of_line. rewrite E, Ec, Ep, <- Ec.
  destruct (no_sep_shown remote (rf_name r) Hs (proj1 Hn)) as [Hs1 Hs2]. unfold ref_line. cbn [splitn]. change (B "@@@") with SEP. rewrite (cut_hex _ _ (proj2 Hc)).
  rewrite (cut_name _ _ Hs1 Hs2). rewrite Ht. unfold entry.
  assert (Hgo : (if remote then if has_prefix ORIGIN (shown remote (rf_name r)) then Ret (drop (length ORIGIN) (shown remote (rf_name r))) else Panic (B "branch name does not have origin/ prefix") else Ret (shown remote (rf_name r))) = Ret (rf_name r)).
  { destruct remote; reflexivity. }
  clear Ep. rewrite Hgo. cbn [obind]. case_bool_decide as E1; [rewrite decide_True by (left; exact E1); done|].
  destruct include; cbn [negb andb]; [rewrite decide_False by (intros [?|[? _]]; done); done|].
  case_bool_decide as E2; [rewrite decide_True by (right; split; [reflexivity|exact E2]); done|]. rewrite decide_False by (intros [?|[_ ?]]; done). done.
Qed.

Lemma parse_lines remote include dflt l acc : Forall (fun r => wf_ref r /\ exists t, pd (rf_date r) = Some t) l -> exists res,
  ofold (fun acc line => do r <- line_of remote include dflt line; Ret (acc ++ option_list r)) acc (map (ref_line remote) l ++ [[]]) = Ret (acc ++ res) /\
  (forall b, b ∈ res <-> exists r t, r ∈ l /\ pd (rf_date r) = Some t /\ entry include dflt r t = Some b) /\
  sublist (map bn_name res) (map rf_name l).
Proof.
  intros H. revert acc. induction H as [|r l [Hr [t Ht]] _ IH]; intros acc.
  - exists []. cbn. split; [done|]. split; [|constructor]. intros b. split; [intros Hb; by apply elem_of_nil in Hb|intros (r & t & Hr & _); by apply elem_of_nil in Hr].
  - cbn [map app ofold]. rewrite (parse_line remote include dflt r t Hr Ht). cbn [obind]. destruct (IH (acc ++ option_list (entry include dflt r t))) as (res & E & H1 & H2).
    exists (option_list (entry include dflt r t) ++ res). split; [by rewrite app_assoc|]. split.
    + intros b. rewrite elem_of_app, H1. split.
      * intros [Hb|(r' & t' & Hr' & Hx)]; [exists r, t|exists r', t'; split; [by right|exact Hx]]. split; [left|]. split; [done|].
        destruct (entry include dflt r t); [|by apply elem_of_nil in Hb]. apply elem_of_list_singleton in Hb. by subst.
      * intros (r' & t' & Hr' & Ht' & Hx). apply elem_of_cons in Hr' as [->|Hr']; [left|right; by exists r', t'].
        assert (t' = t) as -> by congruence. rewrite Hx. left.
    + unfold entry. destruct (decide _); cbn; [by constructor|by constructor].
Qed.
Lemma render_lines remote l : Forall wf_ref l -> split_char NL (render_refs remote l) = map (ref_line remote) l ++ [[]].
Proof.
  intros H. unfold render_refs, unlines. induction H as [|r l (Hc & Hn & _ & Hd) _ IH]; [done|]. cbn [map concat]. rewrite <- app_assoc. cbn [app]. rewrite split_char_cons; [by rewrite IH|].
  unfold ref_line. rewrite !not_elem_of_app. split; [|split; [|split; [|split]]].
  - apply no_nl_graphic. eapply forallb_forall. intros x Hx. apply hex_graphic. destruct Hc as [_ Hc]. rewrite forallb_forall in Hc. by apply Hc.
  - by apply no_nl_graphic.
  - destruct remote; [apply not_elem_of_app; split; [by apply no_nl_graphic|]|]; apply no_nl_graphic; apply Hn.
  - by apply no_nl_graphic.
  - apply Hd.
Qed.
Lemma sublist_nodup {A} (a b : list A) : sublist a b -> NoDup b -> NoDup a.
Proof.
  induction 1 as [|x a b Hs IH|x a b Hs IH]; intros Hn; [done| |].
  - apply NoDup_cons in Hn as [H1 H2]. apply NoDup_cons. split; [|auto]. intros Hx. apply H1. by eapply elem_of_submseteq, sublist_submseteq.
  - apply NoDup_cons in Hn as [_ H2]. auto.
Qed.

#[local] Instance name_le_total : Total (name_le (T:=T)).
Proof. intros a b. unfold name_le. apply (total bytes_le). Qed.
#[local] Instance name_le_trans : Transitive (name_le (T:=T)).
Proof. intros a b c. unfold name_le. apply (transitivity (R:=bytes_le)). Qed.

Lemma default_name_ok dflt : dflt <> [] -> bare dflt -> default_name (Ret (dflt ++ [NL])) = Ret dflt.
Proof. intros H Hb. unfold default_name. cbn [obind]. rewrite (trim_bare_nl dflt Hb). case_bool_decide as E; [by destruct H|done]. Qed.

Lemma get_ok remote include dflt refs out : ref_name dflt -> bare dflt -> Forall (fun r => wf_ref r /\ exists t, pd (rf_date r) = Some t) refs -> NoDup (map rf_name refs) ->
  out remote = Ret (render_refs remote refs) ->
  exists res, branch_get pd remote include (Ret (dflt ++ [NL])) out = Ret res /\
    (forall b, b ∈ res <-> exists r t, r ∈ refs /\ pd (rf_date r) = Some t /\ entry include dflt r t = Some b) /\
    NoDup (map bn_name res) /\ StronglySorted name_le res.
Proof.
  intros Hd Hb0 Hr Hn Ho. unfold branch_get. rewrite (default_name_ok dflt (proj1 Hd) Hb0). cbn [obind]. rewrite Ho. cbn [obind].
  rewrite render_lines by (eapply Forall_impl; [exact Hr|]; by intros ? [? _]). unfold refs_of_lines.
  destruct (parse_lines remote include dflt refs [] Hr) as (res & E & H1 & H2). rewrite E. cbn [obind app].
  exists (merge_sort name_le res). split; [done|]. split; [|split].
  - intros b. rewrite <- H1. by rewrite (merge_sort_Permutation name_le res).
  - change (map bn_name (merge_sort name_le res)) with (bn_name <$> merge_sort name_le res). rewrite (merge_sort_Permutation name_le res). by eapply sublist_nodup.
  - apply (StronglySorted_merge_sort name_le).
Qed.

(** A name that runs into the separator. *)
Lemma cut_min (sep s x y x' y' : bytes) : cut sep s = Some (x, y) -> s = x' ++ sep ++ y' -> length x <= length x'.
Proof.
  revert x y x'. induction s as [|a s IH]; intros x y x' E E'.
  - cbn in E. destruct (has_prefix sep []); [|done]. injection E as <- _. cbn. lia.
  - cbn [cut] in E. destruct (has_prefix sep (a :: s)) eqn:Hp; [injection E as <- _; cbn; lia|].
    destruct (cut sep s) as [[x1 y1]|] eqn:Ec; [|done]. injection E as <- <-. destruct x' as [|a' x'].
    + cbn in E'. rewrite E' in Hp. clear -Hp. exfalso. induction sep as [|c sep IH]; [done|]. cbn in Hp. rewrite bool_decide_eq_true_2 in Hp by done. auto.
    + injection E' as <- E'. specialize (IH x1 y1 x' eq_refl E'). cbn. lia.
Qed.
Lemma cut_some (sep x y : bytes) : exists x1 y1, cut sep (x ++ sep ++ y) = Some (x1, y1) /\ x ++ sep ++ y = x1 ++ sep ++ y1.
Proof.
  destruct (cut sep (x ++ sep ++ y)) as [[x1 y1]|] eqn:E; [|by destruct (occurs_cut sep x y)]. exists x1, y1. split; [done|]. by apply cut_occurs.
Qed.
Lemma bad_name remote include dflt r : commit_id (rf_commit r) -> date_text (rf_date r) ->
  (exists x y, rf_name r = x ++ B "@@@" ++ y) \/ (exists x, rf_name r = x ++ B "@") ->
  (forall d, "@"%char ∈ d -> pd d = None) ->
  line_of remote include dflt (ref_line remote r) = Panic (B "invalid date format").
Proof.
  intros Hc Hd Hbad Hp. destruct (line_parts remote r Hc Hd) as (E0 & c & l & Ec & Ep). unfold ref_of_line. rewrite E0, Ec, Ep, <- Ec. clear Ep.
  unfold ref_line. cbn [splitn]. change (B "@@@") with SEP in *. rewrite (cut_hex _ _ (proj2 Hc)).
  set (s := shown remote (rf_name r)). set (d := rf_date r).
  assert (Hocc : exists x y, s ++ SEP ++ d = x ++ SEP ++ y /\ length x < length s).
  { assert (Hs : (exists x y, s = x ++ SEP ++ y) \/ (exists x, s = x ++ B "@")).
    { unfold s. destruct remote; [|exact Hbad]. unfold shown. destruct Hbad as [(x & y & ->)|(x & ->)]; [left; exists (B "origin/" ++ x), y|right; exists (B "origin/" ++ x)]; by rewrite app_assoc. }
    destruct Hs as [(x & y & ->)|(x & ->)].
    - exists x, (y ++ SEP ++ d). split; [by rewrite <- !app_assoc|]. rewrite !app_length. cbn. lia.
    - exists x, (B "@" ++ d). split; [by rewrite <- !app_assoc|]. rewrite !app_length. cbn. lia. }
  destruct Hocc as (x & y & Eo & Hl). destruct (cut_some SEP s d) as (x1 & y1 & E1 & E2). rewrite E1.
  pose proof (cut_min _ _ _ _ _ _ E1 Eo) as Hmin. rewrite Hp; [done|].
  assert (Hlen : length s + 3 + length d = length x1 + 3 + length y1).
  { pose proof (f_equal length E2) as Hz. rewrite !app_length in Hz. cbn in Hz. lia. }
  assert (Hy : y1 = drop (length x1 + 3) (s ++ SEP) ++ d).
  { rewrite app_assoc, (app_assoc x1) in E2. pose proof (f_equal (drop (length (x1 ++ SEP))) E2) as Hz. rewrite drop_app in Hz. rewrite <- Hz.
    rewrite drop_app_le by (rewrite !app_length; cbn; lia). f_equal. by rewrite app_length. }
  rewrite Hy. apply elem_of_app. left. replace (length x1 + 3) with (length x1 + 1 + 2) by lia.
  assert (Hd2 : exists k, k < 3 /\ drop (length x1 + 3) (s ++ SEP) !! (length s + 2 - (length x1 + 3)) = Some "@"%char).
  { exists 2. split; [lia|]. rewrite lookup_drop. replace (length x1 + 3 + (length s + 2 - (length x1 + 3))) with (length s + 2) by lia.
    rewrite lookup_app_r by lia. replace (length s + 2 - length s) with 2 by lia. done. }
  destruct Hd2 as (_ & _ & Hd2). replace (length x1 + 1 + 2) with (length x1 + 3) by lia. by eapply elem_of_list_lookup_2.
Qed.
Lemma bad_line remote include dflt (l1 l2 : list bytes) line m out : out remote = Ret (unlines (l1 ++ line :: l2)) -> ref_name dflt -> bare dflt ->
  Forall (fun s => NL ∉ s) (l1 ++ line :: l2) ->
  (forall s, s ∈ l1 -> exists x, line_of remote include dflt s = Ret x) -> line_of remote include dflt line = Panic m ->
  branch_get pd remote include (Ret (dflt ++ [NL])) out = Panic m.
Proof.
  intros Ho Hd Hb0 Hnl H1 H2. unfold branch_get. rewrite (default_name_ok dflt (proj1 Hd) Hb0). cbn [obind]. rewrite Ho. cbn [obind].
  assert (E : split_char NL (unlines (l1 ++ line :: l2)) = (l1 ++ line :: l2) ++ [[]]).
  { clear -Hnl. unfold unlines. induction Hnl as [|s l Hs _ IH]; [done|]. cbn [map concat]. rewrite <- app_assoc. cbn [app]. rewrite split_char_cons by done. by rewrite IH. }
  rewrite E. unfold refs_of_lines. assert (Hf : forall acc, ofold (fun acc0 line0 => do r <- line_of remote include dflt line0; Ret (acc0 ++ option_list r)) acc ((l1 ++ line :: l2) ++ [[]]) = Panic m).
  { clear -H1 H2. induction l1 as [|s l1 IH]; intros acc; cbn [app ofold]; [by rewrite H2|]. destruct (H1 s) as [x ->]; [left|]. cbn [obind]. apply IH. intros s' Hs'. apply H1. by right. }
  by rewrite Hf.
Qed.
End Get.
