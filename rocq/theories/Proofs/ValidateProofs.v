(** * Lemmas for C76 *)
From Verif.Model Require Import Base GoStrings IncBlame CommitMeta Process GitBlame Validate.
From Verif.Spec Require Import Text Validation.
From Verif.Proofs Require Import TrimProofs.
From Coq Require Import Lia.

(** ** Comparing *)
Lemma compare_lines_ok c p ls1 : forall ls2 i, length ls1 = length ls2 ->
  compare_lines c p i ls1 ls2 = [] <-> similar_blame ls1 ls2.
Proof.
  induction ls1 as [|l1 ls1 IH]; intros [|l2 ls2] i Hl; try discriminate.
  - cbn. split; [|done]. intros _. split; [done|]. intros j x y Hx. by rewrite lookup_nil in Hx.
  - cbn [compare_lines]. injection Hl as Hl. set (c1 := trim_space (l_data l1)). set (c2 := trim_space l2.1).
    assert (Hret : (length c1 <=? 10) || bool_decide (c1 = B "return") = (length c1 <=? 10)).
    { case_bool_decide as E; [|by rewrite orb_false_r]. rewrite E. reflexivity. }
    rewrite Hret.
    assert (Hhead : similar_blame (l1 :: ls1) (l2 :: ls2) <-> (c1 = c2 /\ (l_commit l1 = l2.2 \/ length c1 <= 10)) /\ similar_blame ls1 ls2).
    { split.
      - intros [_ H]. split.
        + destruct (H 0 l1 l2 eq_refl eq_refl) as (t & H1 & H2 & H3). apply trimmed_iff in H1, H2. fold c1 in H1. fold c2 in H2. subst t. auto.
        + split; [done|]. intros j x y Hx Hy. exact (H (S j) x y Hx Hy).
      - intros [[E H] [_ Hs]]. split; [cbn; by rewrite Hl|]. intros [|j] x y Hx Hy.
        + injection Hx as <-. injection Hy as <-. exists c1. split; [by apply trimmed_iff|]. split; [apply trimmed_iff; by fold c2|exact H].
        + exact (Hs j x y Hx Hy). }
    rewrite Hhead. clear Hhead. specialize (IH ls2 (S i) Hl).
    destruct (bool_decide (l_commit l1 <> l2.2) && negb (bool_decide (c1 = c2) && (length c1 <=? 10))) eqn:E1.
    + split; [discriminate|]. intros [[H1 H2] _]. apply andb_true_iff in E1 as [E1 E2]. apply bool_decide_eq_true in E1.
      rewrite (bool_decide_true (c1 = c2)) in E2 by exact H1. apply negb_true_iff in E2. cbn [andb] in E2. apply Nat.leb_gt in E2. destruct H2; [done|]. lia.
    + destruct (decide (c1 = c2)) as [E2|E2].
      2: { rewrite (bool_decide_true (c1 <> c2)) by exact E2. split; [discriminate|]. intros [[H1 _] _]. done. }
      rewrite (bool_decide_false (c1 <> c2)) by tauto.
      rewrite IH. split; [|tauto]. intros H. split; [|exact H]. split; [exact E2|].
      rewrite (bool_decide_true (c1 = c2)) in E1 by exact E2. cbn [andb] in E1. apply andb_false_iff in E1 as [E1|E1].
      * left. apply bool_decide_eq_false in E1. by apply dec_stable in E1.
      * right. apply negb_false_iff, Nat.leb_le in E1. exact E1.
Qed.
Lemma compare_lines_complaints c p ls1 : forall ls2 i m, m ∈ compare_lines c p i ls1 ls2 -> complaint c p m.
Proof.
  induction ls1 as [|l1 ls1 IH]; intros [|l2 ls2] i m; cbn [compare_lines]; try (intros H; by apply elem_of_nil in H).
  destruct (_ && _); [intros ->%elem_of_list_singleton; right; left; by eexists|].
  case_bool_decide; [intros ->%elem_of_list_singleton; right; right; by eexists|]. apply IH.
Qed.

Section Validate.
Context (git : bytes -> bytes -> outcome bytes).

(** The file is not checked, or its two blames are similar. *)
Definition file_ok (c p : bytes) (b : blame) : Prop :=
  b_lines b <> [] -> exists ls2, git_blame git c p = Ret ls2 /\ similar_blame (b_lines b) ls2.
Lemma file_ok_dec c p b : file_ok c p b \/ ~ file_ok c p b.
Proof.
  unfold file_ok. destruct (decide (b_lines b = [])) as [Hb|Hb]; [left; done|].
  destruct (git_blame git c p) as [ls2|e|e]; [|right; intros H; destruct (H Hb) as (? & [=] & _)..].
  destruct (decide (length (b_lines b) = length ls2)) as [Hl|Hl].
  - pose proof (compare_lines_ok c p (b_lines b) ls2 0 Hl) as Hc. destruct (compare_lines c p 0 (b_lines b) ls2) as [|m r].
    + left. intros _. exists ls2. split; [done|]. by apply Hc.
    + right. intros H. destruct (H Hb) as (? & [= <-] & Hs). by apply Hc in Hs.
  - right. intros H. by destruct (H Hb) as (? & [= <-] & Hs & _).
Qed.
Lemma validate_file_ok c p b ms : validate_file git c p b = Ret ms ->
  exists rest, ms = CheckingFile c p :: rest /\ (forall m, m ∈ rest -> complaint c p m) /\ (rest = [] <-> file_ok c p b).
Proof.
  unfold validate_file, file_ok. case_bool_decide as Hb.
  - intros [= <-]. exists []. split; [done|]. split; [intros m H; by apply elem_of_nil in H|]. by split.
  - destruct (git_blame git c p) as [ls2|e|e]; cbn [obind]; [|discriminate..]. intros [= <-]. eexists. split; [reflexivity|].
    case_bool_decide as Hl.
    + split; [intros m ->%elem_of_list_singleton; by left|]. split; [discriminate|]. intros H. destruct (H Hb) as (l & [= <-] & H' & _). done.
    + split; [intros m; apply compare_lines_complaints|]. rewrite (compare_lines_ok _ _ _ _ _ Hl). split.
      * intros H _. by exists ls2.
      * intros H. destruct (H Hb) as (l & [= <-] & H'). done.
Qed.
Lemma validate_file_ret c p b : (exists ms, validate_file git c p b = Ret ms) <-> (b_lines b <> [] -> exists ls2, git_blame git c p = Ret ls2).
Proof.
  unfold validate_file. case_bool_decide as Hb; [split; [done|by eexists]|]. destruct (git_blame git c p) as [ls2|e|e]; cbn [obind].
  - split; [by eexists|by eexists].
  - split; [intros [? [=]]|]. intros H. destruct (H Hb) as [? [=]].
  - split; [intros [? [=]]|]. intros H. destruct (H Hb) as [? [=]].
Qed.
Lemma validate_file_no_err c p b e : validate_file git c p b <> Err e.
Proof.
  unfold validate_file. case_bool_decide; [done|]. unfold git_blame. destruct (git c p) as [out|e'|e']; cbn [obind]; [|done..].
  assert (Hp : forall ls st metas acc e, parse_lines ls st metas acc <> Err e).
  { clear. induction ls as [|l ls IH]; intros [[h m]|] metas acc e; cbn [parse_lines]; [done|done| |].
    - destruct l as [|c l]; [done|]. case_bool_decide; [destruct (decide _)|]; apply IH.
    - case_bool_decide; [done|apply IH]. }
  unfold parse_output. pose proof (Hp (split_char NL out) None ∅ [] e) as H0. destruct (parse_lines _ _ _ _); cbn [obind]; [done| |done]. congruence.
Qed.
End Validate.

(** ** All files of all commits *)
Lemma omapM_ret {A C} (f : A -> outcome C) l ys : omapM f l = Ret ys -> Forall2 (fun x y => f x = Ret y) l ys.
Proof.
  revert ys; induction l as [|x l IH]; intros ys; cbn [omapM]; [intros [= <-]; constructor|].
  destruct (f x) as [y|e|e] eqn:E; cbn [obind]; [|discriminate..]. destruct (omapM f l) as [zs|e|e]; cbn [obind]; [|discriminate..].
  intros [= <-]. constructor; [exact E|by apply IH].
Qed.
Lemma omapM_ret_iff {A C} (f : A -> outcome C) l : (exists ys, omapM f l = Ret ys) <-> forall x, x ∈ l -> exists y, f x = Ret y.
Proof.
  induction l as [|x l IH]; cbn [omapM].
  - split; [|by eexists]. intros _ x H. by apply elem_of_nil in H.
  - split.
    + intros [ys H]. destruct (f x) as [y|e|e] eqn:E; cbn [obind] in H; [|discriminate..]. destruct (omapM f l) as [zs|e|e]; cbn [obind] in H; [|discriminate..].
      intros z [->|Hz]%elem_of_cons; [by exists y|]. apply IH; [by exists zs|exact Hz].
    + intros H. destruct (H x ltac:(left)) as [y ->]. cbn [obind]. destruct (proj2 IH) as [zs ->]; [|by eexists]. intros z Hz. apply H. by right.
Qed.
Lemma omapM_no_err {A C} (f : A -> outcome C) l : (forall x e, f x <> Err e) -> forall e, omapM f l <> Err e.
Proof.
  intros Hf. induction l as [|x l IH]; intros e; cbn [omapM]; [done|]. destruct (f x) as [y|e'|e'] eqn:E; cbn [obind]; [|by destruct (Hf x e')|done].
  destruct (omapM f l) as [zs|e'|e'] eqn:E'; cbn [obind]; [done| |done]. by destruct (IH e').
Qed.

Lemma complaint_inj c p c' p' m : complaint c p m -> complaint c' p' m -> c' = c /\ p' = p.
Proof. intros [->|[[i ->]|[i ->]]] [[= <- <-]|[[? [= <- <- _]]|[? [= <- <- _]]]]; done. Qed.

Section All.
Context (git : bytes -> bytes -> outcome bytes) (ord : list (bytes * blame) -> list (bytes * blame)) (Hord : forall l, ord l ≡ₚ l).

Lemma concat_checks (R : bytes * blame -> list vmessage -> Prop) (ok : bytes * blame -> Prop) c l ms :
  Forall2 R l ms -> (forall f m, R f m -> exists rest, m = CheckingFile c f.1 :: rest /\ (forall x, x ∈ rest -> complaint c f.1 x) /\ (rest = [] <-> ok f)) ->
  (forall c' p', complains (concat ms) c' p' <-> c' = c /\ exists f, f ∈ l /\ f.1 = p' /\ ~ ok f) /\ (forall f, f ∈ l -> CheckingFile c f.1 ∈ concat ms) /\
  (forall m, m ∈ concat ms -> exists f, f ∈ l /\ (m = CheckingFile c f.1 \/ complaint c f.1 m)).
Proof.
  intros HF HR. induction HF as [|f m l ms Hfm HF (IH1 & IH2 & IH3)].
  - split; [|split].
    + intros c' p'. split; [intros (? & H & _)|intros (_ & ? & H & _)]; by apply elem_of_nil in H.
    + intros f H. by apply elem_of_nil in H.
    + intros m H. by apply elem_of_nil in H.
  - destruct (HR _ _ Hfm) as (rest & -> & H1 & H2). cbn [concat]. split; [|split].
    + intros c' p'. split.
      * intros (m & Hm & Hc). cbn in Hm. apply elem_of_cons in Hm as [->|Hm]; [exfalso; destruct Hc as [[=]|[[? [=]]|[? [=]]]]|].
        apply elem_of_app in Hm as [Hm|Hm].
        -- destruct (complaint_inj _ _ _ _ _ (H1 m Hm) Hc) as [-> ->]. split; [done|]. exists f. split; [left|]. split; [done|]. intros Hok. apply H2 in Hok as ->. by apply elem_of_nil in Hm.
        -- destruct (proj1 (IH1 c' p')) as (-> & g & Hg & Hn); [by exists m|]. split; [done|]. exists g. split; [by right|exact Hn].
      * intros (-> & g & [->|Hg]%elem_of_cons & <- & Hn).
        -- destruct rest as [|x rest]; [by destruct Hn; apply H2|]. exists x. split; [right; left|]. apply H1. left.
        -- destruct (proj2 (IH1 c g.1)) as (x & Hx & Hc); [split; [done|by exists g]|]. exists x. split; [|exact Hc]. right. apply elem_of_app. by right.
    + intros g [->|Hg]%elem_of_cons; [left|]. right. apply elem_of_app. right. by apply IH2.
    + intros x Hx. cbn in Hx. apply elem_of_cons in Hx as [->|Hx]; [exists f; split; [left|by left]|]. apply elem_of_app in Hx as [Hx|Hx].
      * exists f. split; [left|]. right. by apply H1.
      * destruct (IH3 x Hx) as (g & Hg & Hc). exists g. split; [by right|exact Hc].
Qed.
Lemma validate_result_ok r ms : validate_result git ord r = Ret ms ->
  (forall c p, complains ms c p <-> c = r_commit r /\ exists b, r_files r !! p = Some b /\ ~ file_ok git (r_commit r) p b) /\
  (forall p b, r_files r !! p = Some b -> CheckingFile (r_commit r) p ∈ ms).
Proof.
  unfold validate_result. destruct (omapM _ _) as [mss|e|e] eqn:E; cbn [obind]; [|discriminate..]. intros [= <-].
  apply omapM_ret in E.
  destruct (concat_checks _ (fun f => file_ok git (r_commit r) f.1 f.2) (r_commit r) _ _ E) as (H1 & H2 & _).
  { intros [p b] m Hm. exact (validate_file_ok git _ p b m Hm). }
  assert (Hin : forall p b, (p, b) ∈ ord (map_to_list (r_files r)) <-> r_files r !! p = Some b).
  { intros p b. rewrite (Hord (map_to_list (r_files r))). apply elem_of_map_to_list. }
  split.
  - intros c p. transitivity (complains (concat mss) c p).
    + split.
      * intros (m & Hm & Hc). apply elem_of_cons in Hm as [->|Hm]; [exfalso; destruct Hc as [[=]|[[? [=]]|[? [=]]]]|]. by exists m.
      * intros (m & Hm & Hc). exists m. split; [by right|exact Hc].
    + rewrite H1. split.
      * intros (-> & [q b] & Hf & <- & Hn). split; [done|]. exists b. split; [by apply Hin|exact Hn].
      * intros (-> & b & Hf & Hn). split; [done|]. exists (p, b). split; [by apply Hin|]. split; [done|exact Hn].
  - intros p b Hp. right. apply (H2 (p, b)). by apply Hin.
Qed.
Lemma validate_result_ret r : (exists ms, validate_result git ord r = Ret ms) <->
  forall p b, r_files r !! p = Some b -> b_lines b <> [] -> exists ls2, git_blame git (r_commit r) p = Ret ls2.
Proof.
  unfold validate_result.
  pose proof (omapM_ret_iff (fun f : bytes * blame => validate_file git (r_commit r) f.1 f.2) (ord (map_to_list (r_files r)))) as H.
  transitivity (exists ys, omapM (fun f : bytes * blame => validate_file git (r_commit r) f.1 f.2) (ord (map_to_list (r_files r))) = Ret ys).
  { destruct (omapM _ _); cbn [obind]; split; intros [? [=]]; by eexists. }
  rewrite H. split.
  - intros Hx p b Hp. apply (validate_file_ret git _ p b). apply (Hx (p, b)). rewrite (Hord (map_to_list (r_files r))). by apply elem_of_map_to_list.
  - intros Hx [p b] Hin. rewrite (Hord (map_to_list (r_files r))) in Hin. apply elem_of_map_to_list in Hin. apply validate_file_ret. by apply Hx.
Qed.
Lemma validate_repo_no_err repo run e : validate_repo git ord repo run <> Err e.
Proof.
  unfold validate_repo.
  assert (Hr : forall r e, validate_result git ord r <> Err e).
  { intros r e'. unfold validate_result. assert (Hf := omapM_no_err (fun f : bytes * blame => validate_file git (r_commit r) f.1 f.2) (ord (map_to_list (r_files r)))
      ltac:(intros [p b] e2; apply validate_file_no_err)). destruct (omapM _ _) as [x|e2|e2]; cbn [obind]; [done|by destruct (Hf e2)|done]. }
  pose proof (omapM_no_err _ run.1 Hr) as Ho. destruct (omapM _ _) as [x|e2|e2]; cbn [obind]; [|by destruct (Ho e2)|done].
  destruct run.2; done.
Qed.
Lemma complains_concat (mss : list (list vmessage)) c p : complains (concat mss) c p <-> exists ms, ms ∈ mss /\ complains ms c p.
Proof.
  induction mss as [|m mss IH].
  - split; [intros (? & H & _)|intros (? & H & _)]; by apply elem_of_nil in H.
  - cbn [concat]. transitivity (complains m c p \/ complains (concat mss) c p).
    + unfold complains. split.
      * intros (x & [Hx|Hx]%elem_of_app & Hc); [left|right]; by exists x.
      * intros [(x & Hx & Hc)|(x & Hx & Hc)]; exists x; (split; [|exact Hc]); apply elem_of_app; [by left|by right].
    + rewrite IH. split.
      * intros [H|(ms & Hm & H)]; [exists m; split; [left|exact H]|exists ms; split; [by right|exact H]].
      * intros (ms & [->|Hm]%elem_of_cons & H); [by left|right; by exists ms].
Qed.
Lemma validate_repo_ok repo run ms : validate_repo git ord repo run = Ret ms ->
  run.2 = Ret tt /\ last ms = Some (Success repo) /\
  (forall c p, complains ms c p <-> exists r b, r ∈ run.1 /\ r_commit r = c /\ r_files r !! p = Some b /\ ~ file_ok git c p b) /\
  (forall r p b, r ∈ run.1 -> r_files r !! p = Some b -> CheckingFile (r_commit r) p ∈ ms).
Proof.
  unfold validate_repo. destruct (omapM _ _) as [mss|e|e] eqn:E; cbn [obind]; [|discriminate..].
  destruct (run.2) as [[]|e|e] eqn:E2; [|discriminate..]. intros [= <-]. apply omapM_ret in E. split; [reflexivity|].
  split; [apply last_snoc|]. split.
  - intros c p. transitivity (complains (concat mss) c p).
    { unfold complains. split.
      - intros (x & [Hx|Hx]%elem_of_app & Hc); [by exists x|]. apply elem_of_list_singleton in Hx as ->. exfalso. destruct Hc as [[=]|[[? [=]]|[? [=]]]].
      - intros (x & Hx & Hc). exists x. split; [|exact Hc]. apply elem_of_app. by left. }
    rewrite complains_concat. split.
    + intros (m & Hm & Hc). apply elem_of_list_lookup in Hm as [i Hi]. destruct (Forall2_lookup_r _ _ _ _ _ E Hi) as (r & Hr & Hv).
      destruct (proj1 (proj1 (validate_result_ok r m Hv) c p) Hc) as (-> & b & Hp & Hn). exists r, b. split; [by eapply elem_of_list_lookup_2|auto].
    + intros (r & b & Hr & <- & Hp & Hn). apply elem_of_list_lookup in Hr as [i Hi]. destruct (Forall2_lookup_l _ _ _ _ _ E Hi) as (m & Hm & Hv).
      exists m. split; [by eapply elem_of_list_lookup_2|]. apply (validate_result_ok r m Hv). split; [done|]. by exists b.
  - intros r p b Hr Hp. apply elem_of_list_lookup in Hr as [i Hi]. destruct (Forall2_lookup_l _ _ _ _ _ E Hi) as (m & Hm & Hv).
    apply elem_of_app. left. apply elem_of_list_In, in_concat. exists m. split; [apply elem_of_list_In; by eapply elem_of_list_lookup_2|].
    apply elem_of_list_In. by apply (proj2 (validate_result_ok r m Hv) p b).
Qed.
Lemma validate_repo_ret repo run : (exists ms, validate_repo git ord repo run = Ret ms) <->
  run.2 = Ret tt /\ forall r p b, r ∈ run.1 -> r_files r !! p = Some b -> b_lines b <> [] -> exists ls2, git_blame git (r_commit r) p = Ret ls2.
Proof.
  unfold validate_repo. pose proof (omapM_ret_iff (validate_result git ord) run.1) as H.
  transitivity (run.2 = Ret tt /\ exists ys, omapM (validate_result git ord) run.1 = Ret ys).
  { destruct (omapM _ _) as [x|e|e]; cbn [obind].
    - destruct (run.2) as [[]|e|e]; (split; [intros [? Hx]|intros [Hx _]]); try discriminate Hx; [split; [done|by eexists]|by eexists].
    - split; [intros [? [=]]|intros [_ [? [=]]]].
    - split; [intros [? [=]]|intros [_ [? [=]]]]. }
  rewrite H. split.
  - intros [H1 H2]. split; [exact H1|]. intros r p b Hr. exact (proj1 (validate_result_ret r) (H2 r Hr) p b).
  - intros [H1 H2]. split; [exact H1|]. intros r Hr. apply validate_result_ret. intros p b. exact (H2 r p b Hr).
Qed.
End All.
