(** * Two printings of one history are processed alike: lemmas for C57 and C58 *)
From Verif.Model Require Import Base GoStrings GoSort IncBlame LogParser ParentsGraph Process Msgp Checkpoint CheckpointFS.
From Verif.Spec Require Import Text UnifiedDiff Attribution GitLog CommitGraph History Processing Presentation.
From Verif.Proofs Require Import TextLemmas HunkHeader ParsePatch ApplyPatch IncBlameMore MergeBlame LogParse SortLemmas BlameOf ProcessRegular ProcessMerge ProcessLoop ProcessTop MergeOrder FitProofs.
From Coq Require Import Lia.

(** ** What of an edit matters *)
Definition shape (e : edit) : edit := match e with Keep _ => Keep [] | Del _ => Del [] | Add t => Add t end.
Lemma patched_det {L} es (old : list L) out : patched es old out -> forall es' out', patched es' old out' -> map shape es = map shape es' -> out = out'.
Proof.
  intros H. induction H as [|t l es old out _ IH|t l es old out _ IH|t es old out _ IH]; intros es' out' H' E.
  - destruct es' as [|[t'|t'|t'] es']; try discriminate. inversion H'. reflexivity.
  - destruct es' as [|[t'|t'|t'] es']; try discriminate. injection E as E2. inversion H'; subst. f_equal. by eapply IH.
  - destruct es' as [|[t'|t'|t'] es']; try discriminate. injection E as E2. inversion H'; subst. by eapply IH.
  - destruct es' as [|[t'|t'|t'] es']; try discriminate. injection E as E1 E2. inversion H'; subst. f_equal. by eapply IH.
Qed.
Lemma shape_reach es : length (old_text (map shape es)) = length (old_text es).
Proof. induction es as [|[t|t|t] es IH]; cbn; lia. Qed.
Lemma shape_keep ts : map shape (map Keep ts) = replicate (length ts) (Keep []).
Proof. induction ts; cbn; [done|by f_equal]. Qed.
Lemma old_text_kept n : length (old_text (replicate n (Keep []))) = n.
Proof. induction n; cbn; lia. Qed.

Definition agreeR {A B} (R : A -> B -> Prop) (x : outcome A) (y : outcome B) : Prop := forall a b, x = Ret a -> y = Ret b -> R a b.
Notation agree := (agreeR eq).
Lemma agree_bind {A B C D} (R : A -> B -> Prop) (S : C -> D -> Prop) x y f g : agreeR R x y -> (forall a b, R a b -> agreeR S (f a) (g b)) ->
  agreeR S (do a <- x; f a) (do b <- y; g b).
Proof. intros H1 H2 c d. destruct x as [a| |], y as [b| |]; cbn; try done. apply H2. by apply H1. Qed.
Lemma agree_refl {A} (x : outcome A) : agree x x.
Proof. intros a b Ha Hb. congruence. Qed.
Lemma agree_ret {A B} (R : A -> B -> Prop) a b : R a b -> agreeR R (Ret a) (Ret b).
Proof. intros H ? ? [= <-] [= <-]. done. Qed.
Lemma agree_fold {S A B} (R : A -> B -> Prop) (f : S -> A -> outcome S) (g : S -> B -> outcome S) l l' : Forall2 R l l' ->
  (forall s x x', R x x' -> agree (f s x) (g s x')) -> forall s, agree (ofold f s l) (ofold g s l').
Proof.
  intros H Hf. induction H as [|x x' l l' Hx _ IH]; intros s; cbn [ofold]; [apply agree_refl|].
  eapply agree_bind; [apply Hf, Hx|]. intros a b ->. apply IH.
Qed.

(** ** One patch *)
Lemma core_agree {L} (old : list L) hs hs' : located 0 hs -> separated true hs -> Forall body_ok hs ->
  located 0 hs' -> separated true hs' -> Forall body_ok hs' ->
  (exists m m', map shape (concat (map hunk_script hs)) ++ replicate m (Keep []) = map shape (concat (map hunk_script hs')) ++ replicate m' (Keep [])) ->
  agree (apply_core old (parsed_hunks 0 0 hs)) (apply_core old (parsed_hunks 0 0 hs')).
Proof.
  intros Hl Hs Hb Hl' Hs' Hb' (m & m' & Hsh) out out' E E'. pose proof (core_reach old hs out Hl Hs Hb E) as R. pose proof (core_reach old hs' out' Hl' Hs' Hb' E') as R'.
  set (X := concat (map hunk_script hs)) in *. set (Y := concat (map hunk_script hs')) in *.
  assert (Hlen : length (old_text X) + m = length (old_text Y) + m').
  { pose proof (f_equal (fun es => length (old_text es)) Hsh) as Q. cbn beta in Q. rewrite !old_text_app, !app_length, !old_text_kept, !shape_reach in Q. exact Q. }
  set (n := length old - length (old_text X)). set (n' := length old - length (old_text Y)).
  destruct (apply_core_ok hs (replicate n []) old Hl Hs Hb) as (o & Eo & Po). { rewrite script_old_length, replicate_length. unfold patch_reach. fold X. unfold n. lia. }
  destruct (apply_core_ok hs' (replicate n' []) old Hl' Hs' Hb') as (o' & Eo' & Po'). { rewrite script_old_length, replicate_length. unfold patch_reach. fold Y. unfold n'. lia. }
  rewrite E in Eo. injection Eo as <-. rewrite E' in Eo'. injection Eo' as <-. eapply patched_det; [exact Po|exact Po'|].
  unfold script. fold X Y. rewrite !map_app, !shape_keep, !replicate_length.
  destruct (le_lt_dec m m') as [Hm|Hm].
  - assert (E1 : map shape X = map shape Y ++ replicate (m' - m) (Keep [])).
    { replace m' with ((m' - m) + m) in Hsh by lia. rewrite replicate_add, app_assoc in Hsh. by apply app_inv_tail in Hsh. }
    rewrite E1, <- app_assoc, <- replicate_add. do 2 f_equal. unfold n, n'. lia.
  - assert (E1 : map shape Y = map shape X ++ replicate (m - m') (Keep [])).
    { replace m with ((m - m') + m') in Hsh by lia. rewrite replicate_add, app_assoc in Hsh. by apply app_inv_tail in Hsh. }
    rewrite E1, <- app_assoc, <- replicate_add. do 2 f_equal. unfold n, n'. lia.
Qed.

Definition same_effect (d d' : diff) : Prop :=
  d_prev d = d_prev d' /\ d_path d = d_path d' /\ d_binary d = d_binary d' /\ (d_hunks d = [] <-> d_hunks d' = []) /\
  forall file c, agree (apply file d c) (apply file d' c).
Lemma same_effect_refl d : same_effect d d.
Proof. split; [done|]. split; [done|]. split; [done|]. split; [done|]. intros. apply agree_refl. Qed.
Definition same_change (t t' : bytes) : Prop := exists d d', parse t = Ret d /\ parse t' = Ret d' /\ same_effect d d'.

Lemma shape_strip_hunk h : map shape (hunk_script (strip_hunk h)) = map (fun e => shape (strip_edit e)) (hunk_script h).
Proof.
  unfold hunk_script, strip_hunk. cbn [sh_gap sh_body]. rewrite !map_app, !map_map. f_equal.
Qed.
Lemma shape_strip hs : map shape (concat (map hunk_script (map strip_hunk hs))) = map (fun e => shape (strip_edit e)) (concat (map hunk_script hs)).
Proof. induction hs as [|h hs IH]; [done|]. cbn [map concat]. rewrite !map_app, IH. by rewrite shape_strip_hunk. Qed.
Lemma strip_keep ts : map (fun e => shape (strip_edit e)) (map Keep ts) = replicate (length ts) (Keep []).
Proof. induction ts; cbn; [done|by f_equal]. Qed.

(** A patch git prints for a difference of two trees. *)
Definition printed (k : nat) (p : fpatch) : Prop :=
  wf_patch p /\ short_lines (patch_lines p) /\ forall hs, fp_body p = FBText hs -> has_context k 0 true hs.
Lemma printed_of k t t' p : patch_between k t t' p -> printed k p.
Proof.
  intros (Hw & Hs & H). split; [exact Hw|]. split; [exact Hs|]. intros hs E. rewrite E in H. cbn [body_between] in H. destruct (fp_kind p); naive_solver.
Qed.

Lemma name_after_delete p : wf_patch p -> name_after (fp_kind p) = [] <-> exists q m, fp_kind p = FDelete q m.
Proof.
  intros (Hk & _). split.
  - destruct (fp_kind p) as [f m|f m|f m|f g s m]; cbn in *; [| |by eexists _, _|]; intros E; exfalso; unfold plain_path in Hk; naive_solver.
  - intros (q & m & ->). done.
Qed.

Lemma same_patch_change k k' p p' : 2 <= k -> 2 <= k' -> printed k p -> printed k' p' -> same_patch p p' -> same_change (change_text p) (change_text p').
Proof.
  intros Hk Hk' (Hw & Hs & Hc) (Hw' & Hs' & Hc') (N1 & N2 & Hb). unfold change_text. rewrite !strip_patch_lines by done.
  pose proof (strip_wf _ Hw) as W. pose proof (strip_wf _ Hw') as W'. pose proof (strip_short _ Hw Hs) as Sh. pose proof (strip_short _ Hw' Hs') as Sh'.
  eexists _, _. split; [exact (parse_render _ W Sh)|]. split; [exact (parse_render _ W' Sh')|]. split; [exact N1|]. split; [exact N2|].
  cbn [d_binary d_hunks strip_patch fp_kind fp_body]. split; [by destruct (fp_body p), (fp_body p')|].
  destruct (decide (name_after (fp_kind p) = [])) as [E0|E0].
  - pose proof E0 as E1. rewrite N2 in E1. apply (name_after_delete _ Hw) in E0 as (q & m & E0). apply (name_after_delete _ Hw') in E1 as (q' & m' & E1).
    rewrite E0, E1. cbn [parsed_body]. split; [done|]. intros file c a b. unfold apply. cbn [d_binary d_hunks].
    destruct (fp_body p), (fp_body p'); try done; cbn [strip_body is_binary_body]; intros; congruence.
  - assert (Hnd : forall q m, fp_kind p <> FDelete q m) by (intros q m E; apply E0, (name_after_delete _ Hw); by eexists _, _).
    assert (Hnd' : forall q m, fp_kind p' <> FDelete q m) by (intros q m E; apply E0; rewrite N2; apply (name_after_delete _ Hw'); by eexists _, _).
    destruct (fp_body p) as [| |hs] eqn:Eb, (fp_body p') as [| |hs'] eqn:Eb'; try done; cbn [strip_body is_binary_body].
    + assert (parsed_body (fp_kind p) FBNone = []) as -> by (by destruct (fp_kind p)). assert (parsed_body (fp_kind p') FBNone = []) as -> by (by destruct (fp_kind p')).
      split; [done|]. intros file c a b. unfold apply. cbn [d_binary d_hunks]. intros; congruence.
    + assert (parsed_body (fp_kind p) FBBinary = []) as -> by (by destruct (fp_kind p)). assert (parsed_body (fp_kind p') FBBinary = []) as -> by (by destruct (fp_kind p')).
      split; [done|]. intros file c a b. unfold apply. cbn [d_binary d_hunks]. intros; congruence.
    + assert (parsed_body (fp_kind p) (FBText (map strip_hunk hs)) = parsed_hunks 0 0 (map strip_hunk hs)) as -> by (destruct (fp_kind p) as [| |q m|]; try done; by destruct (Hnd q m)).
      assert (parsed_body (fp_kind p') (FBText (map strip_hunk hs')) = parsed_hunks 0 0 (map strip_hunk hs')) as -> by (destruct (fp_kind p') as [| |q m|]; try done; by destruct (Hnd' q m)).
      split. { destruct Hw as (_ & _ & Hwb), Hw' as (_ & _ & Hwb'). rewrite Eb in Hwb. rewrite Eb' in Hwb'. destruct Hwb as [Q _], Hwb' as [Q' _]. by destruct hs, hs'. }
      assert (Eb2 : fp_body (strip_patch p) = FBText (map strip_hunk hs)) by (cbn; by rewrite Eb). assert (Eb2' : fp_body (strip_patch p') = FBText (map strip_hunk hs')) by (cbn; by rewrite Eb').
      pose proof (body_ok_patch _ _ W Sh Eb2) as B. pose proof (body_ok_patch _ _ W' Sh' Eb2') as B'.
      destruct (context_located k 0 true _ Hk (strip_context k 0 true hs (Hc hs eq_refl))) as [Lo Se].
      destruct (context_located k' 0 true _ Hk' (strip_context k' 0 true hs' (Hc' hs' eq_refl))) as [Lo' Se'].
      destruct Hb as (tail & tail' & Hb). apply (f_equal (map (fun e => shape (strip_edit e)))) in Hb. unfold script in Hb. rewrite !map_app, !strip_keep, <- !shape_strip in Hb.
      intros file c a b. unfold apply. cbn [d_binary d_hunks]. destruct (b_binary file); [done|].
      pose proof (core_agree (b_lines file) _ _ Lo Se B Lo' Se' B' (ex_intro _ _ (ex_intro _ _ Hb))) as Hag.
      destruct (apply_core (b_lines file) (parsed_hunks 0 0 (map strip_hunk hs))) as [x| |]; [|done..].
      destruct (apply_core (b_lines file) (parsed_hunks 0 0 (map strip_hunk hs'))) as [y| |]; [|done..]. rewrite (Hag x y eq_refl eq_refl). cbn [obind]. congruence.
Qed.

(** ** Two runs side by side *)
Lemma agreeR_bind {A B C D} (R : A -> B -> Prop) (S : C -> D -> Prop) x y f g : agreeR R x y -> (forall a b, R a b -> agreeR S (f a) (g b)) ->
  agreeR S (obind x f) (obind y g).
Proof. intros H1 H2 c d. destruct x as [a| |], y as [b| |]; cbn; try done. apply H2. by apply H1. Qed.
Lemma agreeR_fold {S S' A B} (Q : S -> S' -> Prop) (R : A -> B -> Prop) (f : S -> A -> outcome S) (g : S' -> B -> outcome S') l l' : Forall2 R l l' ->
  (forall s s' x x', Q s s' -> R x x' -> agreeR Q (f s x) (g s' x')) -> forall s s', Q s s' -> agreeR Q (ofold f s l) (ofold g s' l').
Proof.
  intros H Hf. induction H as [|x x' l l' Hx _ IH]; intros s s' Hs; cbn [ofold]; [by apply agree_ret|].
  eapply agreeR_bind; [by apply Hf|]. intros a b Hab. by apply IH.
Qed.
Lemma fold_agree {S A} (f g : S -> A -> outcome S) l : (forall s x, agree (f s x) (g s x)) -> forall s, agree (ofold f s l) (ofold g s l).
Proof.
  intros Hf. induction l as [|x l IH]; intros s; cbn [ofold]; [apply agree_refl|]. eapply agreeR_bind; [apply Hf|]. intros a b ->. apply IH.
Qed.

Definition lrel (c c' : lcommit) : Prop := lc_hash c = lc_hash c' /\ lc_from c = lc_from c' /\ Forall2 same_change (lc_changes c) (lc_changes c').

Lemma regular_change_agree slow hash parents st ch ch' : same_change ch ch' ->
  agree (regular_change slow hash parents st ch) (regular_change slow hash parents st ch').
Proof.
  intros (d & d' & E & E' & P1 & P2 & P3 & P4 & Ha). destruct st as [r res]. unfold regular_change. rewrite E, E'. cbn [obind]. rewrite <- P1, <- P2, <- P3.
  destruct (d_binary d); [apply agree_refl|]. case_bool_decide; [apply agree_refl|].
  eapply agreeR_bind with (R := eq).
  - destruct (bool_decide (d_prev d <> []) && _); [|apply agree_refl]. destruct parents as [|p [|]]; [apply agree_refl| |apply agree_refl].
    destruct (d_hunks d) as [|h hs], (d_hunks d') as [|h' hs'].
    + apply agree_refl.
    + exfalso. destruct P4 as [P4 _]. discriminate (P4 eq_refl).
    + exfalso. destruct P4 as [_ P4]. discriminate (P4 eq_refl).
    + apply agree_refl.
  - intros w w' <-. destruct w as [pb|]; [apply agree_refl|]. eapply agreeR_bind with (R := eq); [apply agree_refl|]. intros pb pb' <-.
    eapply agreeR_bind with (R := eq); [|intros b b' <-; apply agree_refl]. destruct pb as [b|]; [destruct (b_binary b); [apply agree_refl|apply Ha]|apply Ha].
Qed.
Lemma regular_agree slow r parents c c' : lrel c c' -> agree (process_regular slow r parents c) (process_regular slow r parents c').
Proof.
  intros (E1 & E2 & HF). unfold process_regular. rewrite <- E1. destruct parents as [|p [|]]; [| |apply agree_refl].
  - eapply agreeR_bind with (R := eq); [|intros [r1 res] b <-; apply agree_refl]. apply (agree_fold _ _ _ _ _ HF). intros; by apply regular_change_agree.
  - eapply agreeR_bind with (R := eq); [|intros [r1 res] b <-; apply agree_refl]. apply (agree_fold _ _ _ _ _ HF). intros; by apply regular_change_agree.
Qed.

(** *** Merges *)
Definition drel : option diff -> option diff -> Prop := option_Forall2 same_effect.
Definition rowrel := Forall2 drel.
Definition mrel (m m' : gmap bytes (list (option diff))) : Prop := forall k, option_Forall2 rowrel (m !! k) (m' !! k).
Lemma none_row n : rowrel (replicate n None) (replicate n None).
Proof. induction n; [constructor|]. constructor; [constructor|done]. Qed.
Lemma add_diff_agree parents par m m' ch ch' : mrel m m' -> same_change ch ch' -> agreeR mrel (add_diff parents par m ch) (add_diff parents par m' ch').
Proof.
  intros Hm (d & d' & E & E' & Hd). pose proof Hd as (P1 & P2 & P3 & _). unfold add_diff. rewrite E, E'. cbn [obind]. rewrite <- P1, <- P2.
  set (key := if bool_decide _ then _ else _). set (i := default 0 (par_ord parents !! par)).
  assert (Hrow : rowrel (default (replicate (length parents) None) (m !! key)) (default (replicate (length parents) None) (m' !! key))).
  { destruct (Hm key) as [x y Hxy|]; [exact Hxy|apply none_row]. }
  rewrite (Forall2_length _ _ _ Hrow). destruct (decide _); [|intros ? ? ?; discriminate]. apply agree_ret. intros k. destruct (decide (k = key)) as [->|Hne].
  - rewrite !lookup_insert. constructor. apply Forall2_insert; [exact Hrow|]. by constructor.
  - rewrite !lookup_insert_ne by done. apply Hm.
Qed.
Definition prel2 (x x' : bytes * lcommit) : Prop := x.1 = x'.1 /\ lrel x.2 x'.2.
Lemma collect_agree parents l l' : Forall2 prel2 l l' -> agreeR mrel (collect_diffs parents l) (collect_diffs parents l').
Proof.
  intros HF. unfold collect_diffs. apply (agreeR_fold mrel prel2 _ _ _ _ HF).
  - intros m m' [p c] [p' c'] Hm [Ep (_ & _ & Hc)]. cbn [fst snd] in *. subst p'. apply (agreeR_fold mrel same_change _ _ _ _ Hc); [|exact Hm].
    intros; by apply add_diff_agree.
  - intros k. rewrite !lookup_empty. constructor.
Qed.

Definition zrel (x x' : bytes * option diff) : Prop := x.1 = x'.1 /\ drel x.2 x'.2.
Lemma zip_zrel (parents : list bytes) ds ds' : rowrel ds ds' -> Forall2 zrel (zip parents ds) (zip parents ds').
Proof. intros H. revert parents. induction H as [|d d' ds ds' Hd _ IH]; intros [|p ps]; cbn; try constructor; [by split|apply IH]. Qed.
Lemma omapM_rel {A B C} (R : A -> B -> Prop) (f : A -> outcome C) (g : B -> outcome C) l l' : Forall2 R l l' -> (forall x y, R x y -> f x = g y) -> omapM f l = omapM g l'.
Proof. intros H Hf. induction H as [|x y l l' Hx _ IH]; [done|]. cbn [omapM]. by rewrite (Hf x y Hx), IH. Qed.
Lemma forallb_rel {A B} (R : A -> B -> Prop) f g l l' : Forall2 R l l' -> (forall x y, R x y -> f x = g y) -> forallb f l = forallb g l'.
Proof. intros H Hf. induction H as [|x y l l' Hx _ IH]; [done|]. cbn [forallb]. by rewrite (Hf x y Hx), IH. Qed.
Lemma existsb_rel {A B} (R : A -> B -> Prop) f g l l' : Forall2 R l l' -> (forall x y, R x y -> f x = g y) -> existsb f l = existsb g l'.
Proof. intros H Hf. induction H as [|x y l l' Hx _ IH]; [done|]. cbn [existsb]. by rewrite (Hf x y Hx), IH. Qed.
Lemma first_same_rel r k l l' : Forall2 zrel l l' -> first_same r k l = first_same r k l'.
Proof.
  intros H. induction H as [|[p o] [p' o'] l l' [Ep Ho] _ IH]; [done|]. cbn [fst snd] in *. subst p'. destruct Ho as [d d' _|]; cbn [first_same]; [exact IH|by rewrite IH].
Qed.
Lemma apply_all_agree pbs ds ds' c : Forall2 same_effect ds ds' -> agree (apply_all pbs ds c) (apply_all pbs ds' c).
Proof.
  intros H. revert pbs. induction H as [|d d' ds ds' (_ & _ & _ & _ & Ha) _ IH]; intros [|p ps]; cbn [apply_all]; try apply agree_refl.
  eapply agreeR_bind; [apply Ha|]. intros b b' ->. eapply agreeR_bind; [apply IH|]. intros bs bs' ->. apply agree_refl.
Qed.
Lemma apply_merge_agree pbs ds ds' c : Forall2 same_effect ds ds' -> agree (apply_merge pbs ds c) (apply_merge pbs ds' c).
Proof.
  intros H. unfold apply_merge. destruct (existsb b_binary pbs); [apply agree_refl|].
  rewrite (existsb_rel _ d_binary d_binary _ _ H) by by intros x y (_ & _ & E & _). destruct (existsb d_binary ds'); [apply agree_refl|].
  eapply agreeR_bind; [by apply apply_all_agree|]. intros l l' ->. apply agree_refl.
Qed.
Lemma merge_file_agree r hash parents k ds ds' : rowrel ds ds' -> agree (merge_file r hash parents k ds) (merge_file r hash parents k ds').
Proof.
  intros H. unfold merge_file. pose proof (zip_zrel parents _ _ H) as Hz.
  rewrite (forallb_rel drel _ (fun o : option diff => match o with Some d => bool_decide (d_path d = []) | None => true end) _ _ H).
  2: { intros x y [d d' (_ & E & _)|]; [by rewrite E|done]. }
  destruct (forallb _ ds'); [apply agree_refl|].
  assert (bin_parents r (zip parents ds) = bin_parents r (zip parents ds')) as ->.
  { unfold bin_parents. apply (omapM_rel zrel); [exact Hz|]. intros [p o] [p' o'] [Ep Ho]. cbn [fst snd] in *. subst p'. destruct Ho as [d d' (E & _)|]; [by rewrite E|done]. }
  eapply agreeR_bind; [apply agree_refl|]. intros bins b' <-.
  rewrite (existsb_rel drel _ (fun o : option diff => match o with Some d => d_binary d | None => false end) _ _ H).
  2: { intros x y [d d' (_ & _ & E & _)|]; [by rewrite E|done]. }
  destruct (existsb _ ds' || existsb id bins); [apply agree_refl|].
  rewrite (first_same_rel r k _ _ Hz). eapply agreeR_bind; [apply agree_refl|]. intros same b' <-. destruct same; [apply agree_refl|].
  assert (merge_parents r k (zip parents ds) = merge_parents r k (zip parents ds')) as ->.
  { unfold merge_parents. apply (omapM_rel zrel); [exact Hz|]. intros [p o] [p' o'] [Ep Ho]. cbn [fst snd] in *. subst p'. destruct Ho as [d d' (E & _)|]; [by rewrite E|done]. }
  eapply agreeR_bind; [apply agree_refl|]. intros pbs b' <-.
  eapply agreeR_bind with (R := eq); [|intros bl b' <-; apply agree_refl]. apply apply_merge_agree.
  clear -H. induction H as [|o o' ds ds' Ho _ IH]; cbn [map]; constructor; [|exact IH]. destruct Ho as [d d' Hd|]; cbn [default]; [exact Hd|apply same_effect_refl].
Qed.

(** *** One order for both *)
Definition key_le (x y : bytes * lcommit) : Prop := bytes_le x.1 y.1.
#[global] Instance key_le_dec : RelDecision key_le := fun x y => decide (bytes_le x.1 y.1).
#[global] Instance key_le_trans : Transitive key_le.
Proof. intros x y z. unfold key_le. apply transitivity. Qed.
#[global] Instance key_le_total : Total key_le.
Proof. intros x y. unfold key_le. apply total. exact _. Qed.
Definition one_order : orders := Orders (merge_sort key_le) sort_strings sort_strings.
Lemma one_order_any : any_orders one_order.
Proof. split; [intros l; apply merge_sort_Permutation|]. split; intros l; apply sort_perm. Qed.

Lemma sorted_keys (l : list (bytes * lcommit)) : StronglySorted key_le l -> StronglySorted bytes_le l.*1.
Proof. induction 1 as [|x l _ IH HF]; cbn; constructor; [exact IH|]. rewrite Forall_fmap. eapply Forall_impl; [exact HF|]. done. Qed.
Definition pmrel (m m' : gmap bytes lcommit) : Prop := forall k, option_Forall2 lrel (m !! k) (m' !! k).
Lemma same_keys {A B} (R : A -> B -> Prop) (m : gmap bytes A) (m' : gmap bytes B) : (forall k, option_Forall2 R (m !! k) (m' !! k)) ->
  (map_to_list m).*1 ≡ₚ (map_to_list m').*1.
Proof.
  intros H. apply NoDup_Permutation; [apply NoDup_fst_map_to_list..|]. intros k. rewrite !elem_of_list_fmap. split.
  - intros ([k' x] & -> & Hin). apply elem_of_map_to_list in Hin. cbn. pose proof (H k') as Hk. rewrite Hin in Hk. inversion Hk as [a b Hab Ea Eb|]; subst.
    exists (k', b). split; [done|]. apply elem_of_map_to_list. done.
  - intros ([k' x] & -> & Hin). apply elem_of_map_to_list in Hin. cbn. pose proof (H k') as Hk. rewrite Hin in Hk. inversion Hk as [a b Hab Ea Eb|]; subst.
    exists (k', a). split; [done|]. apply elem_of_map_to_list. done.
Qed.
Lemma parts_sorted m m' : pmrel m m' -> Forall2 prel2 (merge_sort key_le (map_to_list m)) (merge_sort key_le (map_to_list m')).
Proof.
  intros H. pose proof (merge_sort_Permutation key_le (map_to_list m)) as P. pose proof (merge_sort_Permutation key_le (map_to_list m')) as P'.
  assert (E : (merge_sort key_le (map_to_list m)).*1 = (merge_sort key_le (map_to_list m')).*1).
  { apply (StronglySorted_unique bytes_le).
    - apply sorted_keys, (StronglySorted_merge_sort key_le).
    - apply sorted_keys, (StronglySorted_merge_sort key_le).
    - rewrite P, P'. exact (same_keys lrel m m' H). }
  assert (M : forall x, x ∈ merge_sort key_le (map_to_list m) -> m !! x.1 = Some x.2) by (intros [k x]; rewrite P; apply elem_of_map_to_list).
  assert (M' : forall x, x ∈ merge_sort key_le (map_to_list m') -> m' !! x.1 = Some x.2) by (intros [k x]; rewrite P'; apply elem_of_map_to_list).
  clear P P'. revert E M M'. generalize (merge_sort key_le (map_to_list m)) as l, (merge_sort key_le (map_to_list m')) as l'.
  induction l as [|x l IH]; intros [|x' l'] E M M'; try discriminate; [constructor|]. cbn [fmap list_fmap] in E. injection E as E1 E2. constructor.
  - split; [exact E1|]. pose proof (H x.1) as Hx. rewrite (M x) in Hx by constructor. rewrite E1, (M' x') in Hx by constructor. by inversion Hx.
  - apply IH; [exact E2|intros; apply M; by constructor|intros; apply M'; by constructor].
Qed.

Lemma merge_agree r parents hash parts parts' : pmrel parts parts' -> agree (process_merge one_order r parents hash parts) (process_merge one_order r parents hash parts').
Proof.
  intros H. unfold process_merge, one_order. cbn [o_parts o_files o_rest].
  eapply agreeR_bind; [exact (collect_agree parents _ _ (parts_sorted _ _ H))|]. intros m m' Hm.
  rewrite (sort_unique _ _ (same_keys _ _ _ Hm)).
  eapply agreeR_bind with (R := eq).
  - apply fold_agree. intros [r1 res] k. unfold merge_step_file. eapply agreeR_bind with (R := eq); [|intros e e' <-; apply agree_refl].
    apply merge_file_agree. destruct (Hm k) as [x y Hxy|]; [exact Hxy|constructor].
  - intros x x' <-. apply agree_refl.
Qed.

(** *** The loop *)
Definition srel (s s' : pst) : Prop :=
  s_repo s = s_repo s' /\ s_unload s = s_unload s' /\ s_done s = s_done s' /\ s_mcommit s = s_mcommit s' /\ s_last s = s_last s' /\ s_out s = s_out s' /\
  pmrel (s_mparts s) (s_mparts s').
Definition agreeP (x y : pst * outcome unit) : Prop := forall s s', x = (s, Ret tt) -> y = (s', Ret tt) -> srel s s'.
Lemma pmrel_empty m m' : pmrel m m' -> m = ∅ <-> m' = ∅.
Proof.
  intros H. split; intros ->; apply map_eq; intros k; pose proof (H k) as Hk; rewrite lookup_empty in *; by inversion Hk.
Qed.
Lemma pmrel_refl_empty : pmrel ∅ ∅.
Proof. intros k. rewrite !lookup_empty. constructor. Qed.
Lemma srel_refl s : s_mparts s = ∅ -> srel s s.
Proof. intros E. unfold srel. rewrite E. split; [done|]. split; [done|]. split; [done|]. split; [done|]. split; [done|]. split; [done|]. apply pmrel_refl_empty. Qed.
Lemma srel_eq s s' : srel s s' -> s_mparts s = ∅ -> s_mparts s' = ∅ -> s = s'.
Proof. destruct s, s'. intros (E1 & E2 & E3 & E4 & E5 & E6 & _). cbn in *. congruence. Qed.
Lemma srel_finish e s s' c r res : srel s s' -> srel (finish_commit e s c r res) (finish_commit e s' c r res).
Proof.
  intros (E1 & E2 & E3 & E4 & E5 & E6 & _). unfold finish_commit, srel. cbn [s_repo s_unload s_done s_mcommit s_last s_out s_mparts]. rewrite E2, E3, E4, E6.
  split; [done|]. split; [done|]. split; [done|]. split; [done|]. split; [done|]. split; [done|]. apply pmrel_refl_empty.
Qed.

Section lockstep.
Context (e : env) (He : forall c, e_orders e c = one_order).

Lemma got_agree s s' : srel s s' -> agreeP (got_merge_parts e s) (got_merge_parts e s').
Proof.
  intros Hs. pose proof Hs as (E1 & E2 & E3 & E4 & E5 & E6 & Hm). unfold got_merge_parts. rewrite <- E1, <- E4, He.
  pose proof (merge_agree (s_repo s) (env_parents e (s_mcommit s)) (s_mcommit s) _ _ Hm) as Ha.
  destruct (process_merge _ _ _ _ (s_mparts s)) as [[r res]| |]; [|intros ? ? ?; discriminate..].
  destruct (process_merge _ _ _ _ (s_mparts s')) as [[r' res']| |]; [|intros ? ? ? ?; discriminate..].
  specialize (Ha _ _ eq_refl eq_refl). injection Ha as <- <-. intros ? ? [= <-] [= <-]. by apply srel_finish.
Qed.
Lemma new_agree s s' c c' : srel s s' -> lrel c c' -> agreeP (new_commit e s c) (new_commit e s' c').
Proof.
  intros Hs Hc. pose proof Hs as (E1 & E2 & E3 & E4 & E5 & E6 & Hm). pose proof Hc as (F1 & F2 & F3). unfold new_commit. rewrite <- F1.
  destruct (decide _).
  - intros ? ? [= <-] [= <-]. unfold srel. cbn [s_repo s_unload s_done s_mcommit s_last s_out s_mparts]. rewrite E1, E2, E3, E5, E6, F2.
    split; [done|]. split; [done|]. split; [done|]. split; [done|]. split; [done|]. split; [done|].
    intros k. destruct (decide (k = lc_from c')) as [->|Hne]; [rewrite !lookup_singleton; by constructor|rewrite !lookup_singleton_ne by done; constructor].
  - rewrite <- E1. pose proof (regular_agree (e_slow e) (s_repo s) (env_parents e (lc_hash c)) _ _ Hc) as Ha.
    destruct (process_regular _ _ _ c) as [[r res]| |]; [|intros ? ? ?; discriminate..].
    destruct (process_regular _ _ _ c') as [[r' res']| |]; [|intros ? ? ? ?; discriminate..].
    specialize (Ha _ _ eq_refl eq_refl). injection Ha as <- <-. intros ? ? [= <-] [= <-]. by apply srel_finish.
Qed.
Lemma commit_agree s s' c c' : srel s s' -> lrel c c' -> agreeP (process_commit e s c) (process_commit e s' c').
Proof.
  intros Hs Hc. pose proof Hs as (E1 & E2 & E3 & E4 & E5 & E6 & Hm). pose proof Hc as (F1 & F2 & F3). unfold process_commit.
  destruct (decide (s_mparts s = ∅)) as [E|E].
  - rewrite decide_True by by apply (pmrel_empty _ _ Hm). by apply new_agree.
  - rewrite decide_False by (intros E'; apply E; by apply (pmrel_empty _ _ Hm)). rewrite <- E4, <- F1. case_bool_decide.
    + intros ? ? [= <-] [= <-]. unfold srel. cbn [s_repo s_unload s_done s_mcommit s_last s_out s_mparts]. rewrite E1, E2, E3, E5, E6, F2.
      split; [done|]. split; [done|]. split; [done|]. split; [done|]. split; [done|]. split; [done|].
      intros k. destruct (decide (k = lc_from c')) as [->|Hne]; [rewrite !lookup_insert; by constructor|rewrite !lookup_insert_ne by done; apply Hm].
    + pose proof (got_agree s s' Hs) as Hg. destruct (got_merge_parts e s) as [s1 [[]| |]]; [|intros ? ? ?; discriminate..].
      destruct (got_merge_parts e s') as [s1' [[]| |]]; [|intros ? ? ? ?; discriminate..]. apply new_agree; [by apply Hg|exact Hc].
Qed.
Lemma commits_agree l l' : Forall2 lrel l l' -> forall s s', srel s s' -> agreeP (process_commits e s l) (process_commits e s' l').
Proof.
  induction 1 as [|c c' l l' Hc _ IH]; intros s s' Hs; cbn [process_commits]; [by intros ? ? [= <-] [= <-]|].
  pose proof (commit_agree s s' c c' Hs Hc) as Hg. destruct (process_commit e s c) as [s1 [[]| |]]; [|intros ? ? ?; discriminate..].
  destruct (process_commit e s' c') as [s1' [[]| |]]; [|intros ? ? ? ?; discriminate..]. apply IH. by apply Hg.
Qed.
Lemma log_agree l l' s s' t t' : Forall2 lrel l l' -> srel s s' -> process_log e s l = (t, Ret tt) -> process_log e s' l' = (t', Ret tt) -> t = t'.
Proof.
  intros HF Hs. unfold process_log. pose proof (commits_agree l l' HF s s' Hs) as Hg.
  destruct (process_commits e s l) as [s1 [[]| |]]; [|intros ?; discriminate..]. destruct (process_commits e s' l') as [s1' [[]| |]]; [|intros ? ?; discriminate..].
  specialize (Hg _ _ eq_refl eq_refl). pose proof Hg as (_ & _ & _ & _ & _ & _ & Hm). destruct (decide (s_mparts s1 = ∅)) as [E|E].
  - rewrite decide_True by by apply (pmrel_empty _ _ Hm). intros [= <-] [= <-]. apply srel_eq; [exact Hg|exact E|by apply (pmrel_empty _ _ Hm)].
  - rewrite decide_False by (intros E'; apply E; by apply (pmrel_empty _ _ Hm)). intros Et Et'. pose proof (got_agree _ _ Hg _ _ Et Et') as Ht.
    apply srel_eq; [exact Ht| |].
    + unfold got_merge_parts in Et. destruct (process_merge _ _ _ _ _) as [[r res]| |]; [|discriminate..]. by injection Et as <-.
    + unfold got_merge_parts in Et'. destruct (process_merge _ _ _ _ (s_mparts s1')) as [[r res]| |]; [|discriminate..]. by injection Et' as <-.
Qed.
End lockstep.

(** ** Two printings of one history *)
Section histories.
Context (k k' : nat) (H H' : history) (Hk : 2 <= k) (Hk' : 2 <= k') (HV : valid_history k H) (HV' : valid_history k' H') (HS : same_history H H').

Lemma same_parents_of c : hparents H c = hparents H' c.
Proof. unfold hparents. by rewrite (proj1 HS). Qed.
Lemma changes_same c p : is_Some (hi_parents H !! c) -> (hparents H c = [] /\ p = [] \/ p ∈ hparents H c) ->
  Forall2 same_change (map change_text (hi_diff H c p)) (map change_text (hi_diff H' c p)).
Proof.
  intros Hc Hp.
  assert (P : Forall (printed k) (hi_diff H c p)).
  { destruct (proj2 HV c Hc) as (_ & _ & _ & _ & R & Q). destruct Hp as [[Hr ->]|Hp]; [destruct (R Hr) as [D _]|destruct (Q p Hp) as [D _]];
      (eapply Forall_impl; [exact D|]); intros q; apply printed_of. }
  assert (P' : Forall (printed k') (hi_diff H' c p)).
  { rewrite (proj1 HS) in Hc. rewrite same_parents_of in Hp. destruct (proj2 HV' c Hc) as (_ & _ & _ & _ & R & Q).
    destruct Hp as [[Hr ->]|Hp]; [destruct (R Hr) as [D _]|destruct (Q p Hp) as [D _]]; (eapply Forall_impl; [exact D|]); intros q; apply printed_of. }
  destruct HS as (_ & _ & HF). specialize (HF c p). revert P P'. induction HF as [|q q' l l' Hq _ IH]; intros P P'; cbn [map]; constructor.
  - apply Forall_cons in P as [P _]. apply Forall_cons in P' as [P' _]. exact (same_patch_change k k' q q' Hk Hk' P P' Hq).
  - apply Forall_cons in P as [_ P]. apply Forall_cons in P' as [_ P']. by apply IH.
Qed.
Lemma filter_same c (ps : list bytes) : filter (fun p => hi_diff H c p <> []) ps = filter (fun p => hi_diff H' c p <> []) ps.
Proof.
  apply list_filter_iff. intros p. destruct HS as (_ & _ & HF). pose proof (HF c p) as Hp. destruct Hp; split; done.
Qed.
Lemma entries_same c : is_Some (hi_parents H !! c) -> Forall2 lrel (map commit_of (entries_of H c)) (map commit_of (entries_of H' c)).
Proof.
  intros Hc. unfold entries_of. rewrite <- same_parents_of. pose proof (changes_same c) as Hch.
  destruct (hparents H c) as [|p [|p2 ps]] eqn:Ep.
  - constructor; [|constructor]. split; [done|]. split; [done|]. exact (Hch [] Hc (or_introl (conj eq_refl eq_refl))).
  - constructor; [|constructor]. split; [done|]. split; [done|]. apply (Hch p Hc). right. constructor.
  - rewrite <- filter_same.
    assert (Hin : forall q, q ∈ filter (fun p => hi_diff H c p <> []) (p :: p2 :: ps) -> q ∈ p :: p2 :: ps) by (intros q Hq; by apply elem_of_list_filter in Hq as [_ Hq]).
    revert Hin. generalize (filter (fun p => hi_diff H c p <> []) (p :: p2 :: ps)) as qs. intros [|q qs] Hin.
    + constructor; [|constructor]. split; [done|]. split; [done|]. constructor.
    + revert Hin. generalize (q :: qs) as l. clear q qs. induction l as [|q l IH]; intros Hin; cbn [map]; constructor.
      * split; [done|]. split; [done|]. apply (Hch q Hc). right. apply Hin. constructor.
      * apply IH. intros x Hx. apply Hin. by constructor.
Qed.
Lemma log_same cs : (forall c, c ∈ cs -> is_Some (hi_parents H !! c)) -> Forall2 lrel (map commit_of (git_log H cs)) (map commit_of (git_log H' cs)).
Proof.
  intros Hcs. rewrite !log_app. induction cs as [|c cs IH]; cbn [map concat]; [constructor|].
  apply Forall2_app; [apply entries_same, Hcs; constructor|]. apply IH. intros x Hx. apply Hcs. by constructor.
Qed.
End histories.

Definition one_env (H : history) (slow : bytes -> bytes -> outcome blame) : env :=
  Env (hi_parents H) (children_from_parents (map_to_list (hi_parents H))) slow (fun _ => one_order).
Lemma one_env_right H slow : env_right H slow (one_env H slow).
Proof. split; [done|]. split; [by exists (map_to_list (hi_parents H))|]. split; [done|]. intros c. apply one_order_any. Qed.
Lemma run_one H slow k e before r0 cs : run_ready H slow k e before r0 cs ->
  exists s, process_log e (pst_init r0) (map commit_of (git_log H cs)) = (s, Ret tt) /\ process_log (one_env H slow) (pst_init r0) (map commit_of (git_log H cs)) = (s, Ret tt).
Proof.
  intros [HV Hk HS HA He Ho Hc Hb].
  destruct (run_ok k H slow HV Hk HS HA e He before r0 cs Ho Hc Hb) as (s & fin & E & _). exists s. split; [exact E|].
  rewrite (log_app H cs) in *. eapply (runs_same k H slow HV HA e (one_env H slow) He (one_env_right H slow) cs Hc); [by eapply parents_first_nodup|done|exact E].
Qed.
Lemma printings_same H H' slow k k' e e' before r0 cs : run_ready H slow k e before r0 cs -> run_ready H' slow k' e' before r0 cs -> same_history H H' ->
  exists s, process_log e (pst_init r0) (map commit_of (git_log H cs)) = (s, Ret tt) /\ process_log e' (pst_init r0) (map commit_of (git_log H' cs)) = (s, Ret tt).
Proof.
  intros HR HR' HS. destruct (run_one _ _ _ _ _ _ _ HR) as (s & E & E1). destruct (run_one _ _ _ _ _ _ _ HR') as (s' & E' & E1').
  exists s. split; [exact E|]. rewrite E'. do 2 f_equal. destruct HR as [HV Hk _ _ _ _ Hc _], HR' as [HV' Hk' _ _ _ _ _ _].
  assert (one_env H' slow = one_env H slow) as X by (unfold one_env; by rewrite (proj1 HS)). rewrite X in E1'.
  symmetry. refine (log_agree (one_env H slow) (fun _ => eq_refl) _ _ (pst_init r0) (pst_init r0) s s' _ (srel_refl (pst_init r0) eq_refl) E1 E1').
  apply (log_same k k' H H' Hk Hk' HV HV' HS). intros c Hin. by destruct (Hc c Hin).
Qed.
Lemma texts_same H H' slow k k' e e' before r0 cs : run_ready H slow k e before r0 cs -> run_ready H' slow k' e' before r0 cs -> same_history H H' ->
  short_lines (log_lines (git_log H cs)) -> short_lines (log_lines (git_log H' cs)) ->
  exists s, process_log e (pst_init r0) (log_run (render_log (git_log H cs))).1 = (s, Ret tt) /\
    process_log e' (pst_init r0) (log_run (render_log (git_log H' cs))).1 = (s, Ret tt).
Proof.
  intros HR HR' HS Hs Hs'. destruct (printings_same _ _ _ _ _ _ _ _ _ _ HR HR' HS) as (s & E & E'). exists s.
  destruct HR as [HV Hk _ _ _ _ Hc _], HR' as [HV' Hk' _ _ _ _ Hc' _].
  rewrite !log_run_render; try done; eapply git_log_wf; try eassumption; intros c Hin; first [by destruct (Hc c Hin)|by destruct (Hc' c Hin)].
Qed.

(** ** One change of one file, printed twice *)
Lemma patches_same k k' p p' hs hs' tail tail' file commit :
  2 <= k -> 2 <= k' -> wf_patch p -> wf_patch p' -> short_lines (patch_lines p) -> short_lines (patch_lines p') ->
  fp_body p = FBText hs -> fp_body p' = FBText hs' -> (forall q m, fp_kind p <> FDelete q m) -> (forall q m, fp_kind p' <> FDelete q m) ->
  has_context k 0 true hs -> has_context k' 0 true hs' -> script hs tail = script hs' tail' ->
  b_binary file = false -> length (b_lines file) = length (old_text (script hs tail)) ->
  exists d d' b, parse (render_patch p) = Ret d /\ parse (render_patch p') = Ret d' /\ apply file d commit = Ret b /\ apply file d' commit = Ret b.
Proof.
  intros Hk Hk' W W' Sh Sh' Eb Eb' Hnd Hnd' Hc Hc' HE Hbin Hlen.
  destruct (parse_apply_attributed_cr p hs tail file commit k) as (d & b & Hp & Ha & _); [done..|].
  destruct (parse_apply_attributed_cr p' hs' tail' file commit k') as (d' & b' & Hp' & Ha' & _); try done; [by rewrite <- HE|].
  exists d, d', b. split; [exact Hp|]. split; [exact Hp'|]. split; [exact Ha|]. rewrite Ha'. f_equal.
  rewrite (parse_render p W Sh) in Hp. injection Hp as <-. rewrite (parse_render p' W' Sh') in Hp'. injection Hp' as <-.
  rewrite Eb in Ha. rewrite Eb' in Ha'.
  assert (parsed_body (fp_kind p) (FBText hs) = parsed_hunks 0 0 hs) as X by (destruct (fp_kind p) as [| |q m|]; try done; by destruct (Hnd q m)).
  assert (parsed_body (fp_kind p') (FBText hs') = parsed_hunks 0 0 hs') as X' by (destruct (fp_kind p') as [| |q m|]; try done; by destruct (Hnd' q m)).
  rewrite X in Ha. rewrite X' in Ha'. clear X X'.
  pose proof (body_ok_patch _ _ W Sh Eb) as B. pose proof (body_ok_patch _ _ W' Sh' Eb') as B'.
  destruct (context_located k 0 true _ Hk Hc) as [Lo Se]. destruct (context_located k' 0 true _ Hk' Hc') as [Lo' Se'].
  unfold apply in Ha, Ha'. cbn [d_binary d_hunks is_binary_body] in Ha, Ha'. rewrite Hbin in Ha, Ha'.
  apply (f_equal (map shape)) in HE. unfold script in HE. rewrite !map_app, !shape_keep in HE.
  pose proof (core_agree (b_lines file) hs hs' Lo Se B Lo' Se' B' (ex_intro _ _ (ex_intro _ _ HE))) as Hag.
  destruct (apply_core (b_lines file) (parsed_hunks 0 0 hs)) as [x| |]; [|discriminate..].
  destruct (apply_core (b_lines file) (parsed_hunks 0 0 hs')) as [y| |]; [|discriminate..]. rewrite <- (Hag x y eq_refl eq_refl) in Ha'. cbn [obind] in Ha, Ha'. congruence.
Qed.

(** ** The run with its checkpoint *)
Lemma run_top_printings H H' slow k k' e e' before r0 cs skip o disk : run_ready H slow k e before r0 cs -> run_ready H' slow k' e' before r0 cs -> same_history H H' ->
  short_lines (log_lines (git_log H cs)) -> short_lines (log_lines (git_log H' cs)) -> init_checkpoints skip o disk = Ret r0 ->
  (log_run (render_log (git_log H cs))).2 = Ret tt /\ (log_run (render_log (git_log H' cs))).2 = Ret tt /\
  run_top skip e o disk (log_run (render_log (git_log H cs))).1 = run_top skip e' o disk (log_run (render_log (git_log H' cs))).1.
Proof.
  intros HR HR' HS Hs Hs' Hi. destruct (printings_same _ _ _ _ _ _ _ _ _ _ HR HR' HS) as (s & E & E').
  destruct HR as [HV Hk _ _ _ _ Hc _], HR' as [HV' Hk' _ _ _ _ Hc' _].
  rewrite !log_run_render; try done; [|eapply git_log_wf; try eassumption; intros c Hin; first [by destruct (Hc c Hin)|by destruct (Hc' c Hin)]..].
  cbn [fst snd]. split; [done|]. split; [done|]. pose proof (log_same k k' H H' Hk Hk' HV HV' HS cs (fun c Hin => proj1 (Hc c Hin))) as HF.
  unfold run_top. rewrite Hi, E, E'. destruct HF; reflexivity.
Qed.
