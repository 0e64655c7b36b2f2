(** Lemmas about lines, scanners, splitting and numerals. *)
From Verif.Model Require Import Base GoStrings.
From Verif.Spec Require Import Text.
From Coq Require Import Lia.
From Coq Require DecimalString Decimal DecimalN.

(** ** outcome *)
Lemma ofold_app {S A} (f : S -> A -> outcome S) s l1 l2 :
  ofold f s (l1 ++ l2) = do s' <- ofold f s l1; ofold f s' l2.
Proof.
  revert s. induction l1 as [|x l1 IH]; intros s; cbn [ofold app]; [done|].
  destruct (f s x); cbn; [apply IH|done|done].
Qed.
Lemma omapM_Ret {A C} (f : A -> outcome C) (g : A -> C) l :
  Forall (fun x => f x = Ret (g x)) l -> omapM f l = Ret (map g l).
Proof. induction 1 as [|x l Hx _ IH]; cbn; [done|]. by rewrite Hx, IH. Qed.
Lemma obind_assoc {A C D} (o : outcome A) (f : A -> outcome C) (g : C -> outcome D) :
  obind (obind o f) g = obind o (fun x => obind (f x) g).
Proof. by destruct o. Qed.

(** ** scanner *)
Lemma raw_lines_line l rest : no_nl l -> raw_lines (l ++ [NL] ++ rest) = l :: raw_lines rest.
Proof.
  intros Hl. induction l as [|c l IH]; [done|].
  apply not_elem_of_cons in Hl as [Hc Hl].
  cbn [app raw_lines]. rewrite bool_decide_eq_false_2 by congruence.
  change (l ++ NL :: rest) with (l ++ [NL] ++ rest). by rewrite IH.
Qed.
Lemma unlines_cons l ls : unlines (l :: ls) = l ++ [NL] ++ unlines ls.
Proof. unfold unlines. cbn. by rewrite <-app_assoc. Qed.
Lemma unlines_app a b : unlines (a ++ b) = unlines a ++ unlines b.
Proof. unfold unlines. by rewrite map_app, concat_app. Qed.
Lemma raw_lines_unlines ls : Forall no_nl ls -> raw_lines (unlines ls) = ls.
Proof.
  induction 1 as [|l ls Hl _ IH]; [done|].
  rewrite unlines_cons, raw_lines_line, IH; done.
Qed.
Lemma scan_raw_short max ls :
  Forall (fun l => (N.of_nat (length l) < max)%N) ls -> scan_raw max ls = (map drop_cr ls, false).
Proof.
  induction 1 as [|l ls Hl _ IH]; [done|]. cbn [scan_raw].
  destruct (N.leb_spec max (N.of_nat (length l))); [lia|]. by rewrite IH.
Qed.
Lemma scan_unlines max ls :
  Forall no_nl ls -> Forall (fun l => (N.of_nat (length l) < max)%N) ls ->
  scan max (unlines ls) = (map drop_cr ls, false).
Proof. intros H1 H2. unfold scan. rewrite raw_lines_unlines by done. by apply scan_raw_short. Qed.

Lemma drop_cr_cons c r : r <> [] -> drop_cr (c :: r) = c :: drop_cr r.
Proof. by destruct r. Qed.
Lemma drop_cr_snoc l c : drop_cr (l ++ [c]) = if bool_decide (c = CR) then l else l ++ [c].
Proof.
  induction l as [|a l IH]; [done|].
  cbn [app]. rewrite drop_cr_cons by (by destruct l). rewrite IH. by case_bool_decide.
Qed.
Lemma drop_cr_nil : drop_cr [] = [].
Proof. done. Qed.
Lemma drop_cr_no_cr l : no_trailing_cr l -> drop_cr l = l.
Proof.
  destruct l as [|c l _] using rev_ind; [done|]. intros H.
  rewrite drop_cr_snoc. case_bool_decide as Hc; [|done]. subst. by destruct (H l).
Qed.
Lemma drop_cr_prefix_c c l : c <> CR -> drop_cr (c :: l) = c :: drop_cr l.
Proof.
  intros Hc. destruct l; [|done]. cbn. rewrite bool_decide_eq_false_2; done.
Qed.
Lemma drop_cr_app l1 l2 : l2 <> [] -> drop_cr (l1 ++ l2) = l1 ++ drop_cr l2.
Proof.
  intros H. induction l1 as [|a l1 IH]; [done|]. cbn [app].
  rewrite drop_cr_cons, IH; [done|]. by destruct l1, l2.
Qed.
Lemma drop_cr_length l : length (drop_cr l) <= length l.
Proof.
  destruct l as [|c l _] using rev_ind; [done|].
  rewrite drop_cr_snoc. case_bool_decide; rewrite app_length; cbn; lia.
Qed.
Lemma drop_cr_elem x l : x ∈ drop_cr l -> x ∈ l.
Proof.
  destruct l as [|c l _] using rev_ind; [done|].
  rewrite drop_cr_snoc. case_bool_decide; set_solver.
Qed.
Lemma drop_cr_no_nl l : no_nl l -> no_nl (drop_cr l).
Proof. unfold no_nl. intros H1 H2. by apply drop_cr_elem in H2. Qed.
Lemma cr_trimmed_refl t : cr_trimmed t t.
Proof. exists 0. by rewrite app_nil_r. Qed.
Lemma cr_trimmed_trans a b c : cr_trimmed a b -> cr_trimmed b c -> cr_trimmed a c.
Proof.
  intros [k ->] [k' ->]. exists (k' + k). rewrite <-app_assoc. f_equal.
  induction k' as [|k' IH]; cbn; [done|by rewrite IH].
Qed.
Lemma drop_cr_trimmed l : cr_trimmed l (drop_cr l).
Proof.
  destruct l as [|c l _] using rev_ind; [apply cr_trimmed_refl|].
  rewrite drop_cr_snoc. case_bool_decide as H; [|apply cr_trimmed_refl].
  subst. by exists 1.
Qed.
Lemma repeat_snoc {A} (x : A) k : repeat x (S k) = repeat x k ++ [x].
Proof. induction k; cbn in *; congruence. Qed.
Lemma cr_trimmed_no_cr a b : no_trailing_cr a -> cr_trimmed a b -> b = a.
Proof.
  intros H [k Hk]. destruct k as [|k]; [by rewrite Hk, app_nil_r|].
  exfalso. eapply H. rewrite Hk, repeat_snoc, app_assoc. done.
Qed.

Lemma const_no_nl s : forallb (fun c => negb (bool_decide (c = NL))) s = true -> no_nl s.
Proof. intros Hs He. rewrite forallb_forall in Hs. apply elem_of_list_In in He. by specialize (Hs _ He). Qed.
Lemma no_nl_app a b : no_nl a -> no_nl b -> no_nl (a ++ b).
Proof. unfold no_nl. intros Ha Hb. rewrite not_elem_of_app. auto. Qed.

(** ** prefixes *)
Lemma has_prefix_app p s : has_prefix p (p ++ s) = true.
Proof. induction p as [|c p IH]; [done|]. cbn. by rewrite bool_decide_eq_true_2, IH. Qed.
Lemma has_prefix_true p s : has_prefix p s = true -> exists r, s = p ++ r.
Proof.
  revert s. induction p as [|c p IH]; intros s H; [by exists s|].
  destruct s as [|d s]; [done|]. cbn in H. apply andb_true_iff in H as [H1 H2].
  apply bool_decide_eq_true in H1 as ->. destruct (IH _ H2) as [r ->]. by exists r.
Qed.
Lemma drop_app_len {A} (a b : list A) : drop (length a) (a ++ b) = b.
Proof. apply drop_app. Qed.

(** ** splitting *)
Lemma split_char_no c s : c ∉ s -> split_char c s = [s].
Proof.
  induction s as [|a s IH]; intros H; [done|]. apply not_elem_of_cons in H as [H1 H2].
  cbn. rewrite bool_decide_eq_false_2 by congruence. by rewrite IH.
Qed.
Lemma split_char_cons c s r : c ∉ s -> split_char c (s ++ c :: r) = s :: split_char c r.
Proof.
  induction s as [|a s IH]; intros H; cbn.
  - by rewrite bool_decide_eq_true_2.
  - apply not_elem_of_cons in H as [H1 H2]. rewrite bool_decide_eq_false_2 by congruence. by rewrite IH.
Qed.
Lemma split_char_not_nil c s : split_char c s <> [].
Proof. destruct s as [|a s]; [done|]. cbn. case_bool_decide; [done|]. by destruct (split_char c s). Qed.
Lemma join_cons sep x y r : join sep (x :: y :: r) = x ++ sep ++ join sep (y :: r).
Proof. done. Qed.
Lemma split_char_join c l : l <> [] -> Forall (fun s => c ∉ s) l -> split_char c (join [c] l) = l.
Proof.
  intros Hn H. induction H as [|s l Hs Hl IH]; [done|].
  destruct l as [|s2 l]; [by apply split_char_no|].
  rewrite join_cons. cbn [app]. rewrite split_char_cons by done. by rewrite IH.
Qed.
Lemma count_byte_app c a b : count_byte c (a ++ b) = count_byte c a + count_byte c b.
Proof. induction a as [|x a IH]; cbn; [done|]. rewrite IH. lia. Qed.
Lemma count_byte_0 c s : count_byte c s = 0 <-> c ∉ s.
Proof.
  induction s as [|a s IH]; cbn; [split; [set_solver|done]|].
  case_bool_decide as H; [subst; set_solver by lia|].
  rewrite not_elem_of_cons, <-IH. split; [intros; split; [congruence|lia]|intros [_ ?]; lia].
Qed.
Lemma index_byte_app c a b : c ∉ a -> index_byte c (a ++ c :: b) = Some (length a).
Proof.
  induction a as [|x a IH]; intros H; cbn.
  - by rewrite bool_decide_eq_true_2.
  - apply not_elem_of_cons in H as [H1 H2]. rewrite bool_decide_eq_false_2 by congruence. by rewrite IH.
Qed.

(** ** trimming *)
Lemma trim_left_stop f c s : f c = false -> trim_left f (c :: s) = c :: s.
Proof. intros H. cbn. by rewrite H. Qed.
Lemma trim_left_all f a s : forallb f a = true -> trim_left f (a ++ s) = trim_left f s.
Proof. induction a as [|c a IH]; intros H; [done|]. cbn in *. apply andb_true_iff in H as [-> H]. auto. Qed.
Lemma trim_right_stop f s c : f c = false -> trim_right f (s ++ [c]) = s ++ [c].
Proof.
  intros H. unfold trim_right. rewrite rev_app_distr. cbn [rev app].
  rewrite trim_left_stop by done. cbn [rev]. by rewrite rev_involutive.
Qed.
Lemma forallb_rev {A} (f : A -> bool) l : forallb f (rev l) = forallb f l.
Proof. induction l as [|x l IH]; [done|]. cbn. rewrite forallb_app, IH. cbn. destruct (f x), (forallb f l); done. Qed.
Lemma trim_right_all f s a : forallb f a = true -> trim_right f (s ++ a) = trim_right f s.
Proof.
  intros H. unfold trim_right. rewrite rev_app_distr, trim_left_all; [done|]. by rewrite forallb_rev.
Qed.

(** ** numerals *)
Definition uint_bytes (d : Decimal.uint) : bytes := list_ascii_of_string (DecimalString.NilEmpty.string_of_uint d).
Lemma atoi_digits_acc d acc :
  atoi_digits (Zpos acc) (uint_bytes d) = Some (Zpos (Pos.of_uint_acc d acc)).
Proof.
  revert acc. induction d as [|d IH|d IH|d IH|d IH|d IH|d IH|d IH|d IH|d IH|d IH]; intros acc;
    [done|..]; unfold uint_bytes; cbn [DecimalString.NilEmpty.string_of_uint list_ascii_of_string atoi_digits];
    change (list_ascii_of_string (DecimalString.NilEmpty.string_of_uint d)) with (uint_bytes d);
    match goal with |- context [digit_val ?c] => let v := eval vm_compute in (digit_val c) in change (digit_val c) with v end;
    cbv iota beta; rewrite ?Z.add_0_r; cbn [Pos.of_uint_acc];
    match goal with |- context [atoi_digits ?z (uint_bytes d)] =>
      match goal with |- _ = Some (Zpos (Pos.of_uint_acc d ?p)) => replace z with (Zpos p) by lia end end;
    apply IH.
Qed.
Lemma atoi_digits_0 d : atoi_digits 0 (uint_bytes d) = Some (Z.of_N (Pos.of_uint d)).
Proof.
  induction d as [|d IH|d IH|d IH|d IH|d IH|d IH|d IH|d IH|d IH|d IH];
    [done|exact IH|..];
    unfold uint_bytes; cbn [DecimalString.NilEmpty.string_of_uint list_ascii_of_string atoi_digits];
    change (list_ascii_of_string (DecimalString.NilEmpty.string_of_uint d)) with (uint_bytes d);
    match goal with |- context [digit_val ?c] => let v := eval vm_compute in (digit_val c) in change (digit_val c) with v end;
    cbv iota beta;
    cbn [Pos.of_uint Z.of_N];
    match goal with |- context [atoi_digits ?z (uint_bytes d)] =>
      let z' := eval vm_compute in z in change z with z' end;
    by rewrite atoi_digits_acc.
Qed.
Definition is_digit (c : ascii) : bool := match digit_val c with Some _ => true | None => false end.
Lemma uint_bytes_digits d : forallb is_digit (uint_bytes d) = true.
Proof. induction d; [done|..]; unfold uint_bytes; cbn; exact IHd. Qed.
Lemma show_digits n : forallb is_digit (show n) = true.
Proof. apply uint_bytes_digits. Qed.
Lemma show_not_nil n : show n <> [].
Proof.
  unfold show. assert (H : N.to_uint n <> Decimal.Nil).
  { intros H. pose proof (DecimalN.Unsigned.of_to n) as H2. rewrite H in H2. cbn in H2. by subst. }
  by destruct (N.to_uint n).
Qed.
Lemma atoi_show n : atoi (show n) = Some (Z.of_N n).
Proof.
  pose proof (show_digits n) as Hd. pose proof (show_not_nil n) as Hn.
  assert (atoi (show n) = atoi_digits 0 (show n)) as ->.
  { unfold atoi. destruct (show n) as [|c r]; [done|].
    cbn [forallb] in Hd. apply andb_true_iff in Hd as [Hc _].
    case_bool_decide as H1; [by subst|]. case_bool_decide as H2; [by subst|]. done. }
  unfold show. change (list_ascii_of_string (DecimalString.NilEmpty.string_of_uint (N.to_uint n))) with (uint_bytes (N.to_uint n)).
  rewrite atoi_digits_0. f_equal. f_equal.
  change (Pos.of_uint (N.to_uint n)) with (N.of_uint (N.to_uint n)). apply DecimalN.Unsigned.of_to.
Qed.
Lemma atoi_show_nat n : atoi (show_nat n) = Some (Z.of_nat n).
Proof. unfold show_nat. rewrite atoi_show. f_equal. lia. Qed.
Lemma digits_not_elem c s : is_digit c = false -> forallb is_digit s = true -> c ∉ s.
Proof.
  intros Hc Hs. rewrite forallb_forall in Hs. intros He.
  apply elem_of_list_In in He. specialize (Hs _ He). congruence.
Qed.
Lemma show_nat_not_elem c n : is_digit c = false -> c ∉ show_nat n.
Proof. intros. apply digits_not_elem; [done|apply show_digits]. Qed.

Lemma no_trailing_cr_check ls :
  forallb (fun t => negb (bool_decide (last t = Some CR))) ls = true -> Forall no_trailing_cr ls.
Proof.
  intros H. apply Forall_forall. intros t Ht u ->. rewrite forallb_forall in H. apply elem_of_list_In in Ht.
  specialize (H _ Ht). by rewrite last_snoc, bool_decide_eq_true_2 in H.
Qed.

(** ** contains *)

Lemma cut_occurs sep s x y : cut sep s = Some (x, y) -> s = x ++ sep ++ y.
Proof.
  revert x y. induction s as [|a s IH]; intros x y; cbn [cut].
  - destruct (has_prefix sep []) eqn:E; [|done]. destruct sep; [|done]. intros [= <- <-]. done.
  - destruct (has_prefix sep (a :: s)) eqn:E.
    + apply has_prefix_true in E as (r & E). rewrite E. rewrite drop_app_len. intros [= <- <-]. done.
    + destruct (cut sep s) as [[u v]|]; [|done]. intros [= <- <-]. by rewrite (IH u v).
Qed.
Lemma occurs_cut sep x y : cut sep (x ++ sep ++ y) <> None.
Proof.
  induction x as [|a x IH].
  - rewrite app_nil_l. pose proof (has_prefix_app sep y) as H. destruct (sep ++ y); cbn [cut]; by rewrite H.
  - simpl. destruct (has_prefix sep (a :: x ++ sep ++ y)); [done|]. destruct (cut sep (x ++ sep ++ y)) as [[]|]; done.
Qed.
Lemma contains_iff m s : contains m s = true <-> occurs m s.
Proof.
  unfold contains. split.
  - destruct (cut m s) as [[x y]|] eqn:E; [|done]. intros _. apply cut_occurs in E. by exists x, y.
  - intros (x & y & ->). pose proof (occurs_cut m x y). destruct (cut m (x ++ m ++ y)); done.
Qed.
