(** * Which commits are listed: proofs for C67, C68 *)
From Verif.Model Require Import Base GoStrings ParentsGraph CheckpointFS CommitMeta LogArgs.
From Verif.Spec Require Import Text CommitGraph Selection.
From stdpp Require Import relations.
From Coq Require Import Lia.

Section sel.
  Context (R : gitrepo).
  Notation reaches := (reaches (g_parents R)).
  Notation revision := (revision R).

  Lemma one_char (c : ascii) (s : bytes) : s = [c] -> forall u v w, s = u ++ v ++ w -> 2 <= length v -> False.
  Proof. intros -> u v w E Hl. apply (f_equal length) in E. rewrite !app_length in E. cbn in E. lia. Qed.
  Lemma no_dots_notin s : "."%char ∉ s -> no_dots s.
  Proof. intros H u v ->. apply H. apply elem_of_app. right. by left. Qed.
  Lemma head_simple : simple_name (B "HEAD").
  Proof.
    split; [done|]. split; [by apply (bool_decide_unpack _)|]. split; [apply no_dots_notin; by apply (bool_decide_unpack _)|]. split; [|done].
    intros u E. change (B ".") with ["."%char] in E. apply (f_equal last) in E. rewrite last_snoc in E. discriminate E.
  Qed.
  Lemma head_named : named R (B "HEAD") = Some (g_head R).
  Proof. unfold named. by rewrite decide_True. Qed.
  Lemma rev_name_inv n c : simple_name n -> revision n c -> named R n = Some c.
  Proof. intros (_ & H & _) Hr. destruct Hr as [n c _ Hn|n c p ps _ _]; [done|]. exfalso. apply H. apply elem_of_app. right. by left. Qed.
  Lemma rev_head_inv c : revision (B "HEAD") c -> c = g_head R.
  Proof. intros H. apply rev_name_inv in H; [|apply head_simple]. rewrite head_named in H. by injection H. Qed.
  Lemma rev_first_inv n p : simple_name n -> revision (n ++ B "^") p -> exists c ps, named R n = Some c /\ g_parents R !! c = Some (p :: ps).
  Proof.
    intros Hn Hr. remember (n ++ B "^") as m eqn:E. destruct Hr as [m c (_ & Hm & _) _|m c p ps Hr Hp].
    - exfalso. apply Hm. rewrite E. apply elem_of_app. right. by left.
    - apply app_inj_tail in E as [-> _]. exists c, ps. split; [by apply rev_name_inv|done].
  Qed.
  (** "F..HEAD" can be read in one way only. *)
  Lemma dots_split a b F : no_dots a -> no_dots F -> (forall u, F <> u ++ B ".") -> a ++ B ".." ++ b = F ++ B ".." ++ B "HEAD" -> a = F /\ b = B "HEAD".
  Proof.
    intros Ha HF Hd E. destruct (app_eq_inv _ _ _ _ E) as [(w & E1 & E2)|(w & E1 & E2)].
    - destruct w as [|x w]; [rewrite app_nil_r in E1; cbn in E2; injection E2 as <-; done|]. exfalso. injection E2 as <- E2. destruct w as [|y w]; [cbn in E2; discriminate E2|].
      injection E2 as <- E2. apply (Ha F w). done.
    - destruct w as [|x w]; [rewrite app_nil_r in E1; cbn in E2; injection E2 as ->; done|]. exfalso. injection E2 as <- E2. destruct w as [|y w]; [cbn in E2; by apply (Hd a)|].
      injection E2 as <- E2. apply (HF a w). done.
  Qed.
  Lemma range_inv F pos neg : no_dots F -> (forall u, F <> u ++ B ".") -> arg R (F ++ B "..HEAD") pos neg -> exists x, revision F x /\ pos = [g_head R] /\ neg = [x].
  Proof.
    intros HF Hd Ha. remember (F ++ B "..HEAD") as s eqn:E. destruct Ha as [|a x Hn Hr|a b x y Ha Hb Hx Hy].
    - exfalso. assert ("."%char ∈ B "--all") as Hin by (rewrite E; apply elem_of_app; right; left). revert Hin. by apply (bool_decide_unpack _).
    - exfalso. by apply (Hn F (B "HEAD")).
    - apply (dots_split a b F) in E as [-> ->]; [|done..]. apply rev_head_inv in Hy as ->. by exists x.
  Qed.
  Lemma one_arg a pos neg : args_mean R [a] pos neg -> arg R a pos neg.
  Proof. intros H. inversion H as [|? ? p1 n1 p2 n2 H1 H2]; subst. inversion H2; subst. by rewrite !app_nil_r. Qed.
  Lemma one_arg_mean a pos neg : arg R a pos neg -> args_mean R [a] pos neg.
  Proof. intros H. rewrite <- (app_nil_r pos), <- (app_nil_r neg). econstructor; [done|constructor]. Qed.
  Lemma all_inv pos neg : arg R (B "--all") pos neg -> pos = g_head R :: g_tips R /\ neg = [].
  Proof.
    intros Ha. remember (B "--all") as s eqn:E. destruct Ha as [|a x Hn Hr|a b x y Ha Hb Hx Hy]; [done| |].
    - exfalso. subst a. remember (B "--all") as s eqn:E. destruct Hr as [n c (_ & _ & _ & _ & Hs) _|n c p ps _ _]; [done|]. change (B "^") with ["^"%char] in E. apply (f_equal last) in E. rewrite last_snoc in E. discriminate E.
    - exfalso. assert ("."%char ∈ B "--all") as Hin by (rewrite <- E; apply elem_of_app; right; left). revert Hin. by apply (bool_decide_unpack _).
  Qed.
  Lemma head_inv pos neg : arg R (B "HEAD") pos neg -> pos = [g_head R] /\ neg = [].
  Proof.
    intros Ha. remember (B "HEAD") as s eqn:E. destruct Ha as [|a x Hn Hr|a b x y Ha Hb Hx Hy]; [done| |].
    - subst a. by apply rev_head_inv in Hr as ->.
    - exfalso. assert ("."%char ∈ B "HEAD") as Hin by (rewrite <- E; apply elem_of_app; right; left). revert Hin. by apply (bool_decide_unpack _).
  Qed.
  Lemma head_rev : revision (B "HEAD") (g_head R).
  Proof. constructor; [apply head_simple|apply head_named]. Qed.

  Lemma shows_head c : shows R [] c <-> reaches (g_head R) c.
  Proof.
    unfold shows. rewrite decide_True by done. split.
    - intros (pos & neg & Hm & (x & Hx & Hr) & _). apply one_arg, head_inv in Hm as [-> _]. by apply elem_of_list_singleton in Hx as ->.
    - intros Hr. exists [g_head R], []. split; [apply one_arg_mean, arg_rev; [apply no_dots_notin; by apply (bool_decide_unpack _)|apply head_rev]|]. split; [exists (g_head R); split; [by left|done]|].
      intros x Hx. by apply elem_of_nil in Hx.
  Qed.
  Lemma shows_all c : shows R [B "--all"] c <-> exists x, (x = g_head R \/ x ∈ g_tips R) /\ reaches x c.
  Proof.
    unfold shows. rewrite decide_False by done. split.
    - intros (pos & neg & Hm & (x & Hx & Hr) & _). apply one_arg, all_inv in Hm as [-> _]. exists x. split; [by apply elem_of_cons in Hx|done].
    - intros (x & Hx & Hr). exists (g_head R :: g_tips R), []. split; [apply one_arg_mean; constructor|]. split; [exists x; split; [by apply elem_of_cons|done]|].
      intros y Hy. by apply elem_of_nil in Hy.
  Qed.
  Lemma shows_range F c : no_dots F -> (forall u, F <> u ++ B ".") ->
    shows R [F ++ B "..HEAD"] c <-> exists x, revision F x /\ reaches (g_head R) c /\ ~ reaches x c.
  Proof.
    intros HF Hd. unfold shows. rewrite decide_False by done. split.
    - intros (pos & neg & Hm & (x & Hx & Hr) & Hn). apply one_arg, range_inv in Hm as (y & Hy & -> & ->); [|done..]. apply elem_of_list_singleton in Hx as ->. exists y. split; [done|]. split; [done|]. apply Hn. by left.
    - intros (x & Hx & Hr & Hn). exists [g_head R], [x]. split; [apply one_arg_mean; apply (arg_range R F (B "HEAD")); [done|apply no_dots_notin; by apply (bool_decide_unpack _)|done|apply head_rev]|].
      split; [exists (g_head R); split; [by left|done]|]. intros y Hy. by apply elem_of_list_singleton in Hy as ->.
  Qed.
  Lemma caret_dots n : no_dots n -> (forall u, n <> u ++ B ".") -> no_dots (n ++ B "^") /\ forall u, n ++ B "^" <> u ++ B ".".
  Proof.
    intros Hn Hd. split.
    - intros u v E. destruct (exists_last (l := B ".." ++ v)) as (w & x & Ew); [done|]. rewrite Ew, app_assoc in E. apply app_inj_tail in E as [E Ex]. subst x.
      destruct v as [|y v _] using rev_ind; [change (B ".." ++ []) with (["."%char] ++ ["."%char]) in Ew; apply app_inj_tail in Ew as [_ Ew]; discriminate Ew|]. rewrite app_assoc in Ew. apply app_inj_tail in Ew as [Ew _]. apply (Hn u v). by rewrite E, <- Ew.
    - intros u E. apply app_inj_tail in E as [_ E]. discriminate E.
  Qed.
End sel.
