(** * The iteration orders of the runtime do not influence a merge (C30) *)
From Verif.Model Require Import Base GoStrings IncBlame LogParser ParentsGraph Process.
From Verif.Spec Require Import Text UnifiedDiff Attribution GitLog CommitGraph History Processing.
From Verif.Proofs Require Import TextLemmas ParsePatch LogParse ParentsGraphProofs BlameOf ProcessRegular ProcessMerge ProcessLoop.
From Coq Require Import Lia.

(** ** Folds of commuting steps *)
Lemma ofold_perm {S A} (step : S -> A -> outcome S) (I : S -> Prop) (l l' : list A) :
  l ≡ₚ l' -> NoDup l ->
  (forall s a s', a ∈ l -> I s -> step s a = Ret s' -> I s') ->
  (forall s a b s1 s2, a ∈ l -> b ∈ l -> a <> b -> I s -> step s a = Ret s1 -> step s1 b = Ret s2 ->
     exists s1', step s b = Ret s1' /\ step s1' a = Ret s2) ->
  forall s s', I s -> ofold step s l = Ret s' -> ofold step s l' = Ret s'.
Proof.
  intros Hp. induction Hp as [|x l l' Hp IH|x y l|l1 l2 l3 Hp1 IH1 Hp2 IH2]; intros Hnd HI HC s s' Hs E.
  - done.
  - cbn [ofold] in *. destruct (step s x) as [s1| |] eqn:E1; [|done..]. cbn [obind] in *.
    apply NoDup_cons in Hnd as [_ Hnd]. eapply IH; [done| | | |exact E].
    + intros s2 a s3 Ha. apply HI. by constructor.
    + intros s2 a b s3 s4 Ha Hb. apply HC; by constructor.
    + eapply HI; [|done|exact E1]. by constructor.
  - cbn [ofold] in *. destruct (step s y) as [s1| |] eqn:E1; [|done..]. cbn [obind] in E.
    destruct (step s1 x) as [s2| |] eqn:E2; [|done..]. cbn [obind] in E.
    destruct (HC s y x s1 s2) as (s1' & E3 & E4); [set_solver|set_solver| |done|done|done|].
    { apply NoDup_cons in Hnd as [Hn _]. intros ->. apply Hn. by constructor. }
    rewrite E3. cbn [obind]. rewrite E4. done.
  - eapply IH2.
    + by rewrite <-Hp1.
    + intros s0 a s1 Ha. apply HI. by rewrite Hp1.
    + intros s0 a b s1 s2 Ha Hb. apply HC; by rewrite Hp1.
    + exact Hs.
    + by eapply IH1.
Qed.

(** ** Collecting *)
Definition put (n i : nat) (m : gmap bytes (list (option diff))) (kd : bytes * diff) : gmap bytes (list (option diff)) :=
  <[ kd.1 := <[ i := Some kd.2 ]> (default (replicate n None) (m !! kd.1)) ]> m.
Definition puts (n i : nat) (m : gmap bytes (list (option diff))) (l : list (bytes * diff)) := foldl (put n i) m l.
Definition diff_key (d : diff) : bytes := if bool_decide (d_path d <> []) then d_path d else deleted_prefix ++ d_prev d.
Definition rows (n : nat) (m : gmap bytes (list (option diff))) : Prop := forall key ds, m !! key = Some ds -> length ds = n.

Lemma puts_cons n i m a l : puts n i m (a :: l) = puts n i (put n i m a) l.
Proof. done. Qed.
Lemma put_rows n i m kd : rows n m -> rows n (put n i m kd).
Proof.
  intros Hr key ds. unfold put. destruct (decide (key = kd.1)) as [->|Hne].
  - rewrite lookup_insert. intros [= <-]. rewrite insert_length. destruct (m !! kd.1) eqn:E; cbn; [by eapply Hr|apply replicate_length].
  - rewrite lookup_insert_ne by done. apply Hr.
Qed.
Lemma puts_rows n i l : forall m, rows n m -> rows n (puts n i m l).
Proof. induction l as [|kd l IH]; intros m Hr; [done|]. rewrite puts_cons. apply IH. by apply put_rows. Qed.

Lemma put_commute n i j m a b : i <> j -> put n i (put n j m b) a = put n j (put n i m a) b.
Proof.
  intros Hij. unfold put. destruct (decide (a.1 = b.1)) as [E|E].
  - rewrite E, !lookup_insert, !insert_insert. cbn. f_equal. by apply list_insert_commute.
  - rewrite !lookup_insert_ne by done. by rewrite insert_commute.
Qed.
Lemma puts_put n i j l : i <> j -> forall m b, puts n i (put n j m b) l = put n j (puts n i m l) b.
Proof.
  intros Hij. induction l as [|a l IH]; intros m b; [done|]. rewrite !puts_cons, put_commute by done. apply IH.
Qed.
Lemma puts_commute n i j l l' m : i <> j -> puts n i (puts n j m l') l = puts n j (puts n i m l) l'.
Proof.
  intros Hij. revert m. induction l' as [|b l' IH]; intros m; [done|]. rewrite !puts_cons, IH. by rewrite puts_put.
Qed.

Definition idx (parents : list bytes) (par : bytes) : nat := default 0 (par_ord parents !! par).
Lemma idx_lt parents par : par ∈ parents -> NoDup parents -> exists i, parents !! i = Some par /\ idx parents par = i /\ i < length parents.
Proof.
  intros Hp Hn. apply elem_of_list_lookup in Hp as [i Hi]. exists i. split_and!; [done| |by eapply lookup_lt_Some].
  unfold idx. by rewrite (par_ord_lookup parents i par Hn Hi).
Qed.
Lemma idx_ne parents p q : p ∈ parents -> q ∈ parents -> p <> q -> NoDup parents -> idx parents p <> idx parents q.
Proof.
  intros Hp Hq Hne Hn. destruct (idx_lt _ _ Hp Hn) as (i & Hi & -> & _). destruct (idx_lt _ _ Hq Hn) as (j & Hj & -> & _).
  intros ->. congruence.
Qed.

(** Success of one part does not depend on what was collected before. *)
Lemma part_ok parents par chs : idx parents par < length parents -> forall m m', rows (length parents) m ->
  ofold (add_diff parents par) m chs = Ret m' <->
  exists ds, Forall2 (fun ch d => parse ch = Ret d) chs ds /\
    m' = puts (length parents) (idx parents par) m (map (fun d => (diff_key d, d)) ds).
Proof.
  intros Hi. induction chs as [|ch chs IH]; intros m m' Hr; cbn [ofold].
  - split; [intros [= <-]; exists []; split; [constructor|done]|]. intros (ds & HF & ->). inversion HF; subst. done.
  - unfold add_diff at 1. destruct (parse ch) as [d| |] eqn:Ep; cbn [obind].
    2,3: split; [done|]; intros (ds & HF & _); inversion HF; subst; congruence.
    change (if bool_decide (d_path d <> []) then d_path d else deleted_prefix ++ d_prev d) with (diff_key d).
    change (default 0 (par_ord parents !! par)) with (idx parents par).
    assert (Hlen : length (default (replicate (length parents) None) (m !! diff_key d)) = length parents).
    { destruct (m !! diff_key d) eqn:E; cbn; [by eapply Hr|apply replicate_length]. }
    rewrite decide_True by lia. cbn [obind].
    change (<[diff_key d := <[idx parents par := Some d]> (default (replicate (length parents) None) (m !! diff_key d))]> m)
      with (put (length parents) (idx parents par) m (diff_key d, d)).
    rewrite IH by by apply put_rows. split.
    + intros (ds & HF & ->). exists (d :: ds). split; [by constructor|done].
    + intros (ds & HF & ->). inversion HF as [|? d' ? ds' Hd HF']; subst. rewrite Ep in Hd. injection Hd as <-. by exists ds'.
Qed.

Lemma collect_perm parents (L L' : list (bytes * lcommit)) m :
  L ≡ₚ L' -> NoDup L.*1 -> NoDup parents ->
  (forall par lc, (par, lc) ∈ L -> lc_changes lc <> [] -> par ∈ parents) ->
  collect_diffs parents L = Ret m -> collect_diffs parents L' = Ret m.
Proof.
  intros Hp Hnd Hnp Hpar. unfold collect_diffs. apply (ofold_perm _ (rows (length parents)) L L' Hp).
  - by eapply NoDup_fmap_1.
  - intros s [par lc] s' Hin Hr. cbn [fst snd]. destruct (lc_changes lc) as [|ch chs] eqn:Ec; [by intros [= <-]|].
    destruct (idx_lt parents par (Hpar par lc Hin ltac:(by rewrite Ec)) Hnp) as (i & _ & Ei & Hi).
    rewrite part_ok by (try done; by rewrite Ei). intros (ds & _ & ->). by apply puts_rows.
  - intros s [p1 c1] [p2 c2] s1 s2 Ha Hb Hne Hr. cbn [fst snd].
    destruct (lc_changes c1) as [|ch1 chs1] eqn:E1.
    { cbn [ofold]. intros [= <-] E2. exists s2. split; [done|done]. }
    destruct (lc_changes c2) as [|ch2 chs2] eqn:E2.
    { cbn [ofold]. intros E3 [= <-]. exists s. split; [done|done]. }
    destruct (idx_lt parents p1 (Hpar p1 c1 Ha ltac:(by rewrite E1)) Hnp) as (i1 & _ & Ei1 & Hi1).
    destruct (idx_lt parents p2 (Hpar p2 c2 Hb ltac:(by rewrite E2)) Hnp) as (i2 & _ & Ei2 & Hi2).
    assert (Hpp : p1 <> p2).
    { intros ->. apply Hne. f_equal. apply elem_of_list_lookup in Ha as [x Hx]. apply elem_of_list_lookup in Hb as [y Hy].
      assert (x = y) as -> by (eapply (NoDup_lookup L.*1); [done|rewrite list_lookup_fmap, Hx; done|rewrite list_lookup_fmap, Hy; done]). congruence. }
    pose proof (idx_ne parents p1 p2 (Hpar p1 c1 Ha ltac:(by rewrite E1)) (Hpar p2 c2 Hb ltac:(by rewrite E2)) Hpp Hnp) as Hii.
    rewrite part_ok by (try done; by rewrite Ei1). intros (ds1 & F1 & ->).
    rewrite part_ok by (first [by rewrite Ei2|by apply puts_rows]). intros (ds2 & F2 & ->).
    eexists. split; [rewrite part_ok by (try done; by rewrite Ei2); by exists ds2|].
    rewrite part_ok by (first [by rewrite Ei1|by apply puts_rows]). exists ds1. split; [done|]. by rewrite puts_commute.
  - intros key ds Hk. by rewrite lookup_empty in Hk.
Qed.

(** What is collected, backwards. *)
Definition from_src (n : nat) (Src : diff -> Prop) (m : gmap bytes (list (option diff))) : Prop :=
  rows n m /\ (forall key ds, m !! key = Some ds -> (forall d, Some d ∈ ds -> diff_key d = key /\ Src d) /\ exists d, Some d ∈ ds).
Lemma put_src n i (Src : diff -> Prop) m d : i < n -> Src d -> from_src n Src m -> from_src n Src (put n i m (diff_key d, d)).
Proof.
  intros Hi Hs [Hr Hm]. split; [by apply put_rows|]. intros key ds. unfold put. cbn [fst snd].
  destruct (decide (key = diff_key d)) as [->|Hne]; [|rewrite lookup_insert_ne by done; apply Hm].
  rewrite lookup_insert. intros [= <-].
  assert (Hlen : length (default (replicate n None) (m !! diff_key d)) = n).
  { destruct (m !! diff_key d) eqn:E; cbn; [by eapply Hr|apply replicate_length]. }
  split.
  - intros d' Hd'. apply elem_of_list_lookup in Hd' as [x Hx]. destruct (decide (x = i)) as [->|Hxi].
    + rewrite list_lookup_insert in Hx by lia. by injection Hx as <-.
    + rewrite list_lookup_insert_ne in Hx by done. destruct (m !! diff_key d) as [ds|] eqn:E; cbn in Hx.
      * apply (Hm _ _ E). by eapply elem_of_list_lookup_2.
      * apply lookup_replicate in Hx as [? _]. done.
  - exists d. apply elem_of_list_lookup. exists i. apply list_lookup_insert. lia.
Qed.
Lemma puts_src n i (Src : diff -> Prop) ds : i < n -> (forall d, d ∈ ds -> Src d) -> forall m, from_src n Src m ->
  from_src n Src (puts n i m (map (fun d => (diff_key d, d)) ds)).
Proof.
  intros Hi. induction ds as [|d ds IH]; intros Hs m Hm; [done|]. cbn [map]. rewrite puts_cons. apply IH.
  - intros; apply Hs; by constructor.
  - apply put_src; [done|apply Hs; by constructor|done].
Qed.
Lemma collect_from parents (Src : diff -> Prop) (L : list (bytes * lcommit)) m :
  NoDup parents -> (forall par lc, (par, lc) ∈ L -> lc_changes lc <> [] -> par ∈ parents) ->
  (forall par lc ch d, (par, lc) ∈ L -> ch ∈ lc_changes lc -> parse ch = Ret d -> Src d) ->
  collect_diffs parents L = Ret m -> from_src (length parents) Src m.
Proof.
  intros Hnp Hpar HS. unfold collect_diffs.
  assert (H0 : from_src (length parents) Src ∅) by (split; intros key ds Hk; by rewrite lookup_empty in Hk).
  revert H0. generalize (∅ : gmap bytes (list (option diff))) as m0.
  induction L as [|[par lc] L IH]; intros m0 H0; [by intros [= <-]|].
  cbn [ofold fst snd]. destruct (ofold (add_diff parents par) m0 (lc_changes lc)) as [m1| |] eqn:E1; [|done..]. cbn [obind].
  apply IH; [intros p c Hin; apply Hpar; by constructor|intros p c ch d Hin; apply (HS p c); by constructor|].
  destruct (lc_changes lc) as [|ch chs] eqn:Ec; [cbn in E1; by injection E1 as <-|].
  destruct (idx_lt parents par (Hpar par lc ltac:(by constructor) ltac:(by rewrite Ec)) Hnp) as (i & _ & Ei & Hi).
  rewrite part_ok in E1 by (try apply H0; by rewrite Ei). destruct E1 as (ds & HF & ->). apply puts_src; [by rewrite Ei| |done].
  intros d Hd. apply elem_of_list_lookup in Hd as [x Hx]. destruct (Forall2_lookup_r _ _ _ _ _ HF Hx) as (c & Hc & Hpc).
  apply (HS par lc c); [by constructor| |done]. rewrite Ec. by eapply elem_of_list_lookup_2.
Qed.

(** ** One changed file *)
Definition same_parents (parents : list bytes) (r r' : repo) : Prop := forall p, p ∈ parents -> r !! p = r' !! p.
Lemma get_optional_same parents r r' p f : same_parents parents r r' -> p ∈ parents -> get_file_optional r p f = get_file_optional r' p f.
Proof. intros Hs Hp. unfold get_file_optional, get_commit_must. by rewrite Hs. Qed.
Lemma get_must_same parents r r' p f : same_parents parents r r' -> p ∈ parents -> get_file_must r p f = get_file_must r' p f.
Proof. intros Hs Hp. unfold get_file_must, get_commit_must. by rewrite Hs. Qed.
Lemma omapM_ext {A C} (f g : A -> outcome C) l : (forall x, x ∈ l -> f x = g x) -> omapM f l = omapM g l.
Proof.
  induction l as [|x l IH]; intros Hf; [done|]. cbn. rewrite Hf by by constructor. rewrite IH; [done|]. intros; apply Hf; by constructor.
Qed.
Lemma zip_in {X Y} (l : list X) (l' : list Y) x y : (x, y) ∈ zip l l' -> x ∈ l.
Proof. intros Hin. apply elem_of_list_lookup in Hin as [i Hi]. apply zip_lookup in Hi as [Hi _]. by eapply elem_of_list_lookup_2. Qed.
Lemma merge_file_same parents r r' hash k ds : same_parents parents r r' -> merge_file r hash parents k ds = merge_file r' hash parents k ds.
Proof.
  intros Hs. unfold merge_file. destruct (forallb _ ds); [done|].
  assert (bin_parents r (zip parents ds) = bin_parents r' (zip parents ds)) as ->.
  { unfold bin_parents. apply omapM_ext. intros [p [d|]] Hin; [|done]. cbn [fst snd]. case_bool_decide; [done|].
    by rewrite (get_must_same parents r r') by (try done; by eapply zip_in). }
  assert (first_same r k (zip parents ds) = first_same r' k (zip parents ds)) as ->.
  { assert (Hz : forall p o, (p, o) ∈ zip parents ds -> p ∈ parents) by (intros p o; apply zip_in).
    induction (zip parents ds) as [|[p [d|]] l IH]; [done| |]; cbn [first_same].
    - apply IH. intros q o Hq. eapply Hz. by constructor.
    - rewrite (get_optional_same parents r r') by (try done; eapply Hz; by constructor). destruct (get_file_optional r' p k) as [[b|]| |]; cbn; try done.
      apply IH. intros q o Hq. eapply Hz. by constructor. }
  assert (merge_parents r k (zip parents ds) = merge_parents r' k (zip parents ds)) as ->; [|done].
  unfold merge_parents. apply omapM_ext. intros [p [d|]] Hin; cbn [fst snd].
  - case_bool_decide; [done|]. by rewrite (get_must_same parents r r') by (try done; by eapply zip_in).
  - by rewrite (get_optional_same parents r r') by (try done; by eapply zip_in).
Qed.

(** The path a row is reported under. *)
Lemma merge_file_reports n (Src : diff -> Prop) r hash parents m k ds st p b : from_src n Src m -> m !! k = Some ds ->
  merge_file r hash parents k ds = Ret (st, Some (p, b)) ->
  exists d, Some d ∈ ds /\ Src d /\ diff_key d = k /\ ((d_path d = [] /\ p = d_prev d) \/ (d_path d <> [] /\ p = k)).
Proof.
  intros [_ Hm] Hk. destruct (Hm k ds Hk) as [Hall [d Hd]]. unfold merge_file.
  destruct (forallb _ ds) eqn:Ef.
  - destruct (decide _); [|done]. intros [= <- <- <-]. exists d. destruct (Hall d Hd) as [Hkey Hs]. split_and!; try done. left.
    rewrite forallb_forall in Ef. specialize (Ef (Some d) ltac:(by apply elem_of_list_In)). cbn in Ef. apply bool_decide_eq_true in Ef.
    split; [done|]. rewrite <-Hkey. unfold diff_key. rewrite bool_decide_eq_false_2 by (intros ?; congruence). reflexivity.
  - apply not_true_iff_false in Ef. rewrite forallb_forall in Ef.
    assert (exists d', Some d' ∈ ds /\ d_path d' <> []) as (d' & Hd' & Hne).
    { destruct (existsb (fun o : option diff => match o with Some d => negb (bool_decide (d_path d = [])) | None => false end) ds) eqn:Ex.
      - apply existsb_exists in Ex as ([d'|] & Hin & Hb); [|done]. exists d'. split; [by apply elem_of_list_In|].
        apply negb_true_iff, bool_decide_eq_false in Hb. done.
      - exfalso. apply Ef. intros [d'|] Hin; [|done]. destruct (bool_decide (d_path d' = [])) eqn:Eb; [done|].
        apply not_true_iff_false in Ex. destruct Ex. apply existsb_exists. exists (Some d'). split; [done|]. by rewrite Eb. }
    intros E. exists d'. destruct (Hall d' Hd') as [Hkey Hs]. split_and!; try done. right. split; [done|].
    destruct (bin_parents r (zip parents ds)) as [bins| |]; [|done..]. cbn [obind] in E.
    destruct (_ || _); [by injection E as <- <- <-|].
    destruct (first_same r k (zip parents ds)) as [[x|]| |]; cbn [obind] in E; try done.
    destruct (merge_parents r k (zip parents ds)); [|done..]. cbn [obind] in E.
    destruct (apply_merge _ _ _); [|done..]. cbn [obind] in E. by injection E as <- <- <-.
Qed.

(** ** The loops *)
Lemma set_file_same parents r r0 hash k b : hash ∉ parents -> same_parents parents r0 r -> same_parents parents r0 (set_file r hash k b).
Proof.
  intros Hn Hs p Hp. unfold set_file. rewrite lookup_insert_ne; [by apply Hs|]. intros <-. done.
Qed.
Lemma set_file_commute r hash a b x y : a <> b -> set_file (set_file r hash a x) hash b y = set_file (set_file r hash b y) hash a x.
Proof.
  intros Hne. unfold set_file. rewrite !lookup_insert, !insert_insert. cbn. by rewrite (insert_commute (default ∅ (r !! hash)) b a).
Qed.

(** Nothing deletes a path that something writes. *)
Definition no_clash (Src : diff -> Prop) : Prop :=
  forall d d', Src d -> Src d' -> d_path d = [] -> d_path d' <> [] -> d_prev d <> d_path d'.

Lemma files_perm (Src : diff -> Prop) hash parents diffs l l' r0 res0 st :
  no_clash Src -> hash ∉ parents -> from_src (length parents) Src diffs ->
  l ≡ₚ l' -> NoDup l -> (forall k, k ∈ l -> is_Some (diffs !! k)) ->
  ofold (merge_step_file hash parents diffs) (r0, res0) l = Ret st ->
  ofold (merge_step_file hash parents diffs) (r0, res0) l' = Ret st.
Proof.
  intros Hc Hh Hf Hp Hnd Hk. apply (ofold_perm _ (fun s : repo * files => same_parents parents r0 s.1) l l' Hp Hnd); [| |done].
  - intros [r res] k s' _ Hs. unfold merge_step_file. destruct (merge_file _ _ _ _ _) as [e| |]; [|done..]. cbn [obind].
    intros [= <-]. cbn [fst] in *. destruct e.1; [by apply set_file_same|done].
  - intros [r res] a b s1 s2 Ha Hb Hne Hs. cbn [fst] in Hs. unfold merge_step_file.
    destruct (Hk a Ha) as [da Hda]. destruct (Hk b Hb) as [db Hdb]. rewrite Hda, Hdb. change (default [] (Some da)) with da; change (default [] (Some db)) with db.
    destruct (merge_file r hash parents a da) as [ea| |] eqn:Ea; [|intros; discriminate..]. cbn [obind]. intros [= <-].
    assert (Hs1 : same_parents parents r (match ea.1 with Some x => set_file r hash a x | None => r end)).
    { destruct ea.1; [apply set_file_same; [exact Hh|intros ? ?; reflexivity]|intros ? ?; reflexivity]. }
    rewrite <-(merge_file_same parents r _ hash b db Hs1).
    destruct (merge_file r hash parents b db) as [eb| |] eqn:Eb; [|done..]. cbn [obind]. intros [= <-].
    eexists. split; [reflexivity|].
    assert (Hs2 : same_parents parents r (match eb.1 with Some x => set_file r hash b x | None => r end)).
    { destruct eb.1; [apply set_file_same; [exact Hh|intros ? ?; reflexivity]|intros ? ?; reflexivity]. }
    cbv beta iota. rewrite <-(merge_file_same parents r _ hash a da Hs2). rewrite Ea. cbn [obind]. f_equal. f_equal.
    + destruct ea.1, eb.1; try done. by apply set_file_commute.
    + destruct ea as [sa [[pa ba]|]], eb as [sb [[pb bb]|]]; cbn [snd]; try done. apply insert_commute.
      destruct (merge_file_reports _ _ _ _ _ _ _ _ _ _ _ Hf Hda Ea) as (d & _ & Sd & Kd & Cd).
      destruct (merge_file_reports _ _ _ _ _ _ _ _ _ _ _ Hf Hdb Eb) as (d' & _ & Sd' & Kd' & Cd').
      unfold diff_key in Kd, Kd'.
      destruct Cd as [[Pd ->]|[Pd ->]], Cd' as [[Pd' ->]|[Pd' ->]]; [| | |by intros ->].
      * rewrite bool_decide_eq_false_2 in Kd, Kd' by (intros Hx; congruence). intros E. apply Hne. rewrite <-Kd, <-Kd'. by rewrite E.
      * rewrite bool_decide_eq_true_2 in Kd' by done. subst b. by apply Hc.
      * rewrite bool_decide_eq_true_2 in Kd by done. subst a. apply not_eq_sym. by apply Hc.
Qed.

Lemma rest_perm hash parents l l' r0 r : hash ∉ parents -> l ≡ₚ l' -> NoDup l ->
  ofold (merge_step_rest hash parents) r0 l = Ret r -> ofold (merge_step_rest hash parents) r0 l' = Ret r.
Proof.
  intros Hh Hp Hnd. apply (ofold_perm _ (fun _ => True) l l' Hp Hnd); [done| |done].
  intros s a b s1 s2 _ _ Hne _.
  assert (Hset : forall s f x g fs, f <> g -> s !! hash = Some fs ->
    merge_step_rest hash parents (set_file s hash f x) g =
    obind (merge_step_rest hash parents s g) (fun s' => Ret (set_file s' hash f x))).
  { clear -Hh. intros s f x g fs Hne Hfs. unfold merge_step_rest.
    assert (get_file_optional (set_file s hash f x) hash g = get_file_optional s hash g) as ->.
    { unfold get_file_optional, get_commit_must, set_file. rewrite lookup_insert, Hfs. cbn. by rewrite lookup_insert_ne. }
    destruct (get_file_optional s hash g) as [[m|]| |]; cbn [obind]; try done.
    rewrite (omapM_ext (fun p => get_file_optional (set_file s hash f x) p g) (fun p => get_file_optional s p g)).
    2:{ intros p Hin. apply (get_optional_same parents); [|done]. intros q Hq. unfold set_file. rewrite lookup_insert_ne; [done|]. intros <-. done. }
    destruct (omapM _ _) as [os| |]; cbn [obind]; try done. destruct (last (omap id os)); cbn [obind]; [|done].
    f_equal. by apply set_file_commute. }
  assert (Hcase : forall s f s1, merge_step_rest hash parents s f = Ret s1 ->
    exists fs, s !! hash = Some fs /\ (s1 = s \/ exists x, s1 = set_file s hash f x)).
  { clear. intros s f s1. unfold merge_step_rest, get_file_optional at 1, get_commit_must at 1. destruct (s !! hash) as [fs|]; [|done].
    cbn [obind]. intros E. exists fs. split; [done|]. destruct (fs !! f); [left; by injection E|].
    destruct (omapM _ _) as [os| |]; cbn [obind] in E; try done. destruct (last (omap id os)); [|done]. injection E as <-. right. by eexists. }
  intros Ea Eb. destruct (Hcase _ _ _ Ea) as (fs & Hfs & [->|[x ->]]).
  - exists s2. split; [done|]. destruct (Hcase _ _ _ Eb) as (_ & _ & [->|[y ->]]); [done|].
    rewrite (Hset _ _ _ _ fs) by done. rewrite Ea. done.
  - rewrite (Hset _ _ _ _ fs) in Eb by done. destruct (merge_step_rest hash parents s b) as [s3| |] eqn:E3; [|done..]. cbn [obind] in Eb.
    exists s3. split; [done|]. destruct (Hcase _ _ _ E3) as (_ & _ & [->|[y ->]]); [by rewrite Ea|].
    rewrite (Hset _ _ _ _ fs) by done. rewrite Ea. cbn [obind]. rewrite <-Eb. f_equal. by apply set_file_commute.
Qed.

(** ** The whole merge *)

(** The changes of all parts, parsed. *)
Definition change_of (parts : gmap bytes lcommit) (d : diff) : Prop :=
  exists par lc ch, parts !! par = Some lc /\ ch ∈ lc_changes lc /\ parse ch = Ret d.

Lemma merge_order o1 o2 r parents hash parts x :
  any_orders o1 -> any_orders o2 -> NoDup parents -> hash ∉ parents ->
  (forall par lc, parts !! par = Some lc -> lc_changes lc <> [] -> par ∈ parents) ->
  no_clash (change_of parts) ->
  process_merge o1 r parents hash parts = Ret x -> process_merge o2 r parents hash parts = Ret x.
Proof.
  intros (P1 & F1 & R1) (P2 & F2 & R2) Hnp Hh Hpar Hnc. unfold process_merge.
  assert (Hin : forall o : list (bytes * lcommit) -> list (bytes * lcommit), any_perm o -> forall par lc, (par, lc) ∈ o (map_to_list parts) -> parts !! par = Some lc).
  { intros o Ho par lc. rewrite (Ho _). apply elem_of_map_to_list. }
  destruct (collect_diffs parents (o_parts o1 (map_to_list parts))) as [m| |] eqn:Em; [|done..]. cbn [obind].
  assert (collect_diffs parents (o_parts o2 (map_to_list parts)) = Ret m) as ->.
  { eapply collect_perm; [|  |done| |exact Em].
    - by rewrite (P1 _), (P2 _).
    - rewrite (P1 _). apply NoDup_fst_map_to_list.
    - intros par lc Hi. apply (Hpar par lc). by apply (Hin (o_parts o1) P1). }
  cbn [obind].
  assert (Hsrc : from_src (length parents) (change_of parts) m).
  { eapply collect_from; [done| | |exact Em].
    - intros par lc Hi. apply (Hpar par lc). by apply (Hin (o_parts o1) P1).
    - intros par lc ch d Hi Hc Hd. exists par, lc, ch. split_and!; try done. by apply (Hin (o_parts o1) P1). }
  destruct (ofold _ _ (o_files o1 _)) as [st| |] eqn:Es; [|done..]. cbn [obind].
  rewrite (files_perm (change_of parts) hash parents m (o_files o1 (map_to_list m).*1) (o_files o2 (map_to_list m).*1) _ _ st); try done.
  2:{ by rewrite (F1 _), (F2 _). }
  2:{ rewrite (F1 _). apply NoDup_fst_map_to_list. }
  2:{ intros k. rewrite (F1 _). intros Hk. apply elem_of_list_fmap in Hk as ([k' ds] & -> & Hk). apply elem_of_map_to_list in Hk. by exists ds. }
  cbn [obind]. destruct (parent_files st.1 parents) as [fs| |] eqn:Ep; [|done..]. cbn [obind].
  destruct (ofold _ _ (o_rest o1 fs)) as [r2| |] eqn:Er; [|done..].
  rewrite (rest_perm hash parents (o_rest o1 fs) (o_rest o2 fs) _ r2); try done.
  - by rewrite (R1 _), (R2 _).
  - rewrite (R1 _). unfold parent_files in Ep. destruct (omapM _ _); [|done..]. injection Ep as <-. apply NoDup_remove_dups.
Qed.

(** ** The whole run *)
Section runs.
  Context (k : nat) (H : history) (slow : bytes -> bytes -> outcome blame).
  Context (HV : valid_history k H) (HA : acyclic (hi_parents H)).
  Context (e1 e2 : env) (He1 : env_right H slow e1) (He2 : env_right H slow e2).

  Lemma history_no_clash c : known H c -> 1 < length (hparents H c) -> plain_merge H c ->
    no_clash (change_of (collect_parts (group H c) ∅)).
  Proof.
    intros Hc Hm Hpl. destruct (Hpl Hm) as [_ Hre]. destruct (group_parts 2 H (le_n 2) c Hm) as [Hparts _].
    assert (Hsrc : forall d, change_of (collect_parts (group H c) ∅) d -> exists p q, p ∈ hparents H c /\ q ∈ hi_diff H c p /\
      parse (change_text q) = Ret d).
    { intros d (par & lc & ch & Hl & Hch & Hd). destruct (Hparts par lc Hl) as [[Hp E]|E]; rewrite E in Hch; [|by apply elem_of_nil in Hch].
      change (map change_text (hi_diff H c par)) with (change_text <$> hi_diff H c par) in Hch.
      apply elem_of_list_fmap in Hch as (q & -> & Hq). by exists par, q. }
    intros d d' Hd Hd' Pd Pd'. apply Hsrc in Hd as (p & q & Hp & Hq & Eq). apply Hsrc in Hd' as (p' & q' & Hp' & Hq' & Eq').
    pose proof (part_patch k H HV c p q Hp Hq) as B1. pose proof (part_patch k H HV c p' q' Hp' Hq') as B2.
    destruct (change_parsed q) as (dd & E1 & N1 & M1 & _); [apply B1|apply B1|].
    destruct (change_parsed q') as (dd' & E2 & N2 & M2 & _); [apply B2|apply B2|].
    rewrite Eq in E1. injection E1 as <-. rewrite Eq' in E2. injection E2 as <-.
    assert (Hw : writes q' (d_path d')) by (split; [done|by symmetry]).
    assert (Hdel : deletes q (d_prev d)).
    { destruct (writes_or_deletes k q _ _ B1) as [[f [Hf1 Hf2]]|[f Hf]]; [congruence|].
      destruct (deletes_name _ _ _ _ _ B1 Hf) as (_ & E & _). rewrite N1, E. done. }
    intros E. destruct (writes_in_tree k H HV c p' q' _ Hp' Hq' Hw) as [x Hx].
    rewrite <-E, (deletes_gone k H HV c Hre p q _ Hp Hq Hdel) in Hx. done.
  Qed.

  Lemma trim_same c : forall ps st, (forall p, p ∈ ps -> p ∈ hparents H c) -> trim (e_children e1) ps st = trim (e_children e2) ps st.
  Proof.
    induction ps as [|p ps IH]; intros st Hps; [done|]. unfold trim. cbn [foldl].
    assert (trim_one (e_children e1) st p = trim_one (e_children e2) st p) as ->.
    { unfold trim_one.
      destruct (children_of k H slow HV e1 He1 p c (Hps p ltac:(by constructor))) as (l1 & -> & N1 & M1).
      destruct (children_of k H slow HV e2 He2 p c (Hps p ltac:(by constructor))) as (l2 & -> & N2 & M2).
      assert (length l1 = length l2) as E by (apply Permutation_length; apply NoDup_Permutation; [done..|]; intros x; by rewrite M1, M2).
      change (default [] (Some l1)) with l1. change (default [] (Some l2)) with l2. by rewrite E. }
    apply IH. intros q Hq. apply Hps. by constructor.
  Qed.
  Lemma finish_same s c r res : finish_commit e1 s c r res = finish_commit e2 s c r res.
  Proof.
    unfold finish_commit. rewrite (env_parents_eq H slow e1 He1), (env_parents_eq H slow e2 He2). by rewrite (trim_same c) by done.
  Qed.

  Lemma runs_same cs : (forall c, c ∈ cs -> known H c /\ plain_merge H c) -> NoDup cs -> forall s s', s_mparts s = ∅ ->
    process_log e1 s (concat (map (group H) cs)) = (s', Ret tt) -> process_log e2 s (concat (map (group H) cs)) = (s', Ret tt).
  Proof.
    induction cs as [|c cs IH]; intros Hcs Hnd s s' Hs; [unfold process_log; cbn [process_commits map concat]; by rewrite !(decide_True (P := s_mparts s = ∅)) by exact Hs|].
    apply NoDup_cons in Hnd as [Hncs Hnd]. destruct (Hcs c ltac:(by constructor)) as [Hc Hpl].
    assert (IH' : forall s s', s_mparts s = ∅ ->
      process_log e1 s (concat (map (group H) cs)) = (s', Ret tt) -> process_log e2 s (concat (map (group H) cs)) = (s', Ret tt)).
    { intros. apply IH; try done. intros x Hx. apply Hcs. by constructor. }
    clear IH. cbn [map concat]. set (rest := concat (map (group H) cs)) in *.
    assert (Hhead : forall lc, head rest = Some lc -> c <> lc_hash lc).
    { unfold rest. clear -Hncs. intros lc Hlc. destruct cs as [|c' cs']; [done|]. cbn in Hlc. destruct (group_cons H c') as (g & gs & Eg).
      rewrite Eg in Hlc. cbn in Hlc. injection Hlc as <-. rewrite (group_hash H c' g) by (rewrite Eg; by constructor). intros ->. apply Hncs. by constructor. }
    clearbody rest.
    pose proof (env_parents_eq H slow e1 He1 c) as P1. pose proof (env_parents_eq H slow e2 He2 c) as P2.
    destruct (decide (1 < length (hparents H c))) as [Hm|Hm].
    - destruct (group_cons H c) as (g & gs & Eg).
      assert (Hall : Forall (fun lc => lc_hash lc = c) (g :: gs)).
      { apply Forall_forall. intros lc Hlc. apply (group_hash H). by rewrite Eg. }
      apply Forall_cons in Hall as [Hgc Hall]. rewrite Eg. cbn [app].
      rewrite !log_merge; try done; rewrite ?Hgc, ?P1, ?P2; try done.
      rewrite <-Eg. unfold got_merge_parts. cbn [s_mcommit with_parts s_repo s_mparts]. rewrite P1, P2.
      destruct (process_merge (e_orders e1 c) _ _ _ _) as [[r res]| |] eqn:E1; [|done..].
      rewrite (merge_order (e_orders e1 c) (e_orders e2 c) _ _ _ _ (r, res)); try done.
      + cbn [out_step]. rewrite finish_same. by apply IH'.
      + by apply He1.
      + by apply He2.
      + by eapply nodup_parents.
      + by apply c_not_parent.
      + intros par lc Hl Hne. destruct (group_parts 2 H (le_n 2) c Hm) as [Hparts _]. by destruct (Hparts par lc Hl) as [[? _]|?].
      + by apply history_no_clash.
    - destruct (group_regular 2 H (le_n 2) c ltac:(lia)) as (lc & Eg & Hh & Hch). rewrite Eg. cbn [app].
      rewrite !log_regular; try done; rewrite ?Hh, ?P1, ?P2; try lia. unfold new_commit. rewrite Hh, P1, P2. rewrite !(decide_False (P := 1 < length (hparents H c))) by done.
      assert (e_slow e1 = slow) as -> by apply He1. assert (e_slow e2 = slow) as -> by apply He2.
      destruct (process_regular _ _ _ _) as [[r res]| |]; [|done..]. cbn [out_step]. rewrite finish_same. by apply IH'.
  Qed.
End runs.
