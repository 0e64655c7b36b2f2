(** * Continuing from a stored state gives the results of one full run (C38) *)
From Verif.Model Require Import Base GoStrings IncBlame LogParser ParentsGraph Process.
From Verif.Spec Require Import Text UnifiedDiff Attribution GitLog CommitGraph History Processing.
From Verif.Proofs Require Import TextLemmas ParsePatch LogParse ParentsGraphProofs BlameOf ProcessRegular ProcessMerge ProcessLoop MergeOrder ProcessTop.
From Coq Require Import Lia.

(** ** One commit reads only its parents *)
Definition osame {A} (R : A -> A -> Prop) (o1 o2 : outcome A) : Prop :=
  match o1, o2 with Ret a, Ret b => R a b | Err m, Err m' => m = m' | Panic m, Panic m' => m = m' | _, _ => False end.
Lemma osame_bind {A C} (R : A -> A -> Prop) (Q : C -> C -> Prop) o1 o2 f g :
  osame R o1 o2 -> (forall a b, R a b -> osame Q (f a) (g b)) -> osame Q (obind o1 f) (obind o2 g).
Proof. destruct o1, o2; cbn; try done. intros HR HF. by apply HF. Qed.
Lemma osame_eq {A} (o : outcome A) : osame eq o o.
Proof. by destruct o. Qed.

Definition agree (X : list bytes) (r r' : repo) : Prop := forall x, x ∈ X -> r !! x = r' !! x.
Lemma agree_set X r r' h p b : agree X r r' -> h ∈ X -> agree X (set_file r h p b) (set_file r' h p b).
Proof.
  intros HA Hh x Hx. unfold set_file. rewrite <-(HA h Hh). destruct (decide (x = h)) as [->|Hne]; [by rewrite !lookup_insert|].
  rewrite !lookup_insert_ne by done. by apply HA.
Qed.
Lemma agree_add X r r' h : (forall x, x ∈ X -> x <> h -> r !! x = r' !! x) -> agree X (add_commit r h) (add_commit r' h).
Proof.
  intros HA x Hx. unfold add_commit. destruct (decide (x = h)) as [->|Hne]; [by rewrite !lookup_insert|].
  rewrite !lookup_insert_ne by done. by apply HA.
Qed.
Lemma agree_must X r r' p f : agree X r r' -> p ∈ X -> get_file_must r p f = get_file_must r' p f.
Proof. intros HA Hp. unfold get_file_must, get_commit_must. by rewrite (HA p Hp). Qed.
Lemma agree_optional X r r' p f : agree X r r' -> p ∈ X -> get_file_optional r p f = get_file_optional r' p f.
Proof. intros HA Hp. unfold get_file_optional, get_commit_must. by rewrite (HA p Hp). Qed.

Definition st_same (X : list bytes) (a b : repo * files) : Prop := agree X a.1 b.1 /\ a.2 = b.2.
Lemma ofold_same {S A} (R : S -> S -> Prop) (f : S -> A -> outcome S) l :
  (forall a b x, R a b -> x ∈ l -> osame R (f a x) (f b x)) -> forall a b, R a b -> osame R (ofold f a l) (ofold f b l).
Proof.
  induction l as [|x l IH]; intros Hf a b HR; [done|]. cbn [ofold]. eapply osame_bind; [apply Hf; [done|by constructor]|].
  intros a' b' HR'. apply IH; [|done]. intros a1 b1 y HR1 Hy. apply Hf; [done|by constructor].
Qed.

Lemma change_frame slow hash parents ch a b : st_same (hash :: parents) a b ->
  osame (st_same (hash :: parents)) (regular_change slow hash parents a ch) (regular_change slow hash parents b ch).
Proof.
  destruct a as [r res], b as [r' res']. intros [HA E]. cbn [fst snd] in HA, E. subst res'. unfold regular_change.
  eapply osame_bind; [apply osame_eq|]. intros d ? <-. set (X := hash :: parents) in *.
  assert (Hh : hash ∈ X) by (unfold X; by constructor).
  assert (Hset : forall p b, st_same X (set_file r hash p b, <[ p := b ]> res) (set_file r' hash p b, <[ p := b ]> res)).
  { intros p b. split; [by apply agree_set|done]. }
  destruct (d_binary d).
  { case_bool_decide; [split; done|apply Hset]. }
  case_bool_decide; [split; done|].
  eapply (osame_bind eq).
  { destruct (bool_decide (d_prev d <> []) && bool_decide (d_prev d <> d_path d)); [|done].
    destruct parents as [|p [|p' l]]; [done| |done]. destruct (d_hunks d); [|done].
    rewrite (agree_must X r r') by (try done; unfold X; set_solver). apply osame_eq. }
  intros w ? <-. destruct w as [pb|]; [apply Hset|].
  eapply (osame_bind eq).
  { case_bool_decide; [done|]. destruct parents as [|p [|p' l]]; [done| |done].
    rewrite (agree_optional X r r') by (try done; unfold X; set_solver). apply osame_eq. }
  intros pb ? <-. eapply (osame_bind eq); [apply osame_eq|]. intros bl ? <-. apply Hset.
Qed.

Lemma regular_frame slow r r' parents c : agree parents r r' -> lc_hash c ∉ parents ->
  osame (fun a b => a.2 = b.2 /\ a.1 !! lc_hash c = b.1 !! lc_hash c) (process_regular slow r parents c) (process_regular slow r' parents c).
Proof.
  intros HA Hn. unfold process_regular. destruct parents as [|p [|p' l]]; [| |done].
  - eapply osame_bind.
    + apply (ofold_same (st_same [lc_hash c])); [intros; by apply change_frame|]. split; [|done]. apply agree_add. set_solver.
    + intros [r1 res1] [r2 res2] [H1 H2]. cbn in *. split; [by subst|]. apply H1. set_solver.
  - eapply osame_bind.
    + apply (ofold_same (st_same [lc_hash c; p])); [intros; by apply change_frame|]. split; [|done]. apply agree_add.
      intros x Hx Hne. apply HA. set_solver.
    + intros [r1 res1] [r2 res2] [H1 H2]. cbn in H1, H2. subst res2. unfold get_commit_must. rewrite <-(H1 p ltac:(set_solver)).
      destruct (r1 !! p) as [fs|]; [|done]. cbn. split; [done|]. unfold copy_unchanged. rewrite !lookup_insert, <-(H1 (lc_hash c) ltac:(set_solver)). done.
Qed.

Lemma merge_frame o r r' parents hash parts : agree parents r r' -> hash ∉ parents ->
  osame (fun a b => a.2 = b.2 /\ a.1 !! hash = b.1 !! hash) (process_merge o r parents hash parts) (process_merge o r' parents hash parts).
Proof.
  intros HA Hn. unfold process_merge. eapply (osame_bind eq); [apply osame_eq|]. intros diffs ? <-.
  set (X := hash :: parents). assert (Hh : hash ∈ X) by (unfold X; by constructor).
  assert (HP : forall p, p ∈ parents -> p ∈ X) by (intros p Hp; unfold X; by constructor).
  eapply (osame_bind (st_same X)).
  { apply ofold_same; [|split; [|done]; apply agree_add; intros x Hx Hne; apply HA; unfold X in Hx; set_solver].
    intros [r1 res1] [r2 res2] k [H1 H2] _. cbn in H1, H2. subst res2. unfold merge_step_file.
    rewrite (merge_file_same parents r1 r2) by (intros p Hp; apply H1; by apply HP).
    destruct (merge_file r2 hash parents k _) as [[ob op]| |]; [|done|done]. cbn. split; [|done]. cbn. destruct ob; [by apply agree_set|done]. }
  intros [r1 res1] [r2 res2] [H1 H2]. cbn in H1, H2. subst res2. cbn [fst snd].
  eapply (osame_bind eq).
  { unfold parent_files. eapply (osame_bind eq); [|intros ? ? <-; done].
    rewrite (omapM_ext (get_commit_must r1) (get_commit_must r2)); [apply osame_eq|].
    intros p Hp. unfold get_commit_must. by rewrite (H1 p (HP p Hp)). }
  intros fs ? <-. eapply (osame_bind (agree X)).
  { apply ofold_same; [|done]. intros a b f Hab _. unfold merge_step_rest.
    rewrite (agree_optional X a b) by done. destruct (get_file_optional b hash f) as [[bl|]| |]; cbn; try done.
    rewrite (omapM_ext (fun p => get_file_optional a p f) (fun p => get_file_optional b p f));
      [|intros p Hp; apply (agree_optional X); [done|by apply HP]].
    destruct (omapM _ parents) as [os| |]; cbn; try done. destruct (last (omap id os)); cbn; [by apply agree_set|done]. }
  intros a b Hab. cbn. split; [done|]. by apply Hab.
Qed.

(** ** One commit of a history *)
Definition step (H : history) (slow : bytes -> bytes -> outcome blame) (o : orders) (r : repo) (c : bytes) : outcome (repo * result) :=
  if decide (1 < length (hparents H c)) then process_merge o r (hparents H c) c (collect_parts (group H c) ∅)
  else match group H c with lc :: _ => process_regular slow r (hparents H c) lc | [] => Panic (B "no entry") end.

Section resume.
  Context (k : nat) (H : history) (slow : bytes -> bytes -> outcome blame).
  Context (HV : valid_history k H) (Hk : 2 <= k) (HS : slow_blame_right H slow) (HA : acyclic (hi_parents H)).

  Lemma step_frame o r r' c : known H c -> agree (hparents H c) r r' ->
    osame (fun a b => a.2 = b.2 /\ a.1 !! c = b.1 !! c) (step H slow o r c) (step H slow o r' c).
  Proof.
    intros Hc Hag. pose proof (c_not_parent H HA c) as Hn. unfold step. case_decide as Hm; [by apply merge_frame|].
    destruct (group_regular 2 H (le_n 2) c ltac:(lia)) as (lc & -> & Hh & _). subst c. by apply regular_frame.
  Qed.
  Lemma step_orders o1 o2 r c x : known H c -> plain_merge H c -> any_orders o1 -> any_orders o2 ->
    step H slow o1 r c = Ret x -> step H slow o2 r c = Ret x.
  Proof.
    intros Hc Hpl H1 H2. unfold step. case_decide as Hm; [|done]. apply merge_order; try done.
    - by eapply nodup_parents.
    - by apply c_not_parent.
    - intros par lc Hl Hne. destruct (group_parts 2 H (le_n 2) c Hm) as [Hparts _]. by destruct (Hparts par lc Hl) as [[? _]|?].
    - by eapply history_no_clash.
  Qed.

  (** A map of stored files and of results that fits all commits of a list. *)
  Definition sol (Z : repo) (cs : list bytes) (res : bytes -> result) : Prop :=
    forall c o, c ∈ cs -> any_orders o -> exists r', step H slow o Z c = Ret (r', res c) /\ r' !! c = Z !! c.

  Lemma trim_shrinks ch ps : forall st x, (trim ch ps st).2.2 !! x = st.2.2 !! x \/ (trim ch ps st).2.2 !! x = None.
  Proof.
    induction ps as [|p ps IH]; intros st x; [by left|]. change (trim ch (p :: ps) st) with (trim ch ps (trim_one ch st p)).
    destruct (IH (trim_one ch st p) x) as [->| ->]; [|by right]. unfold trim_one. cbn [snd]. case_decide; [|by left].
    unfold unload. case_decide; cbn [snd]; [|by left]. destruct (last _) as [y|]; [|by left].
    destruct (decide (x = y)) as [->|]; [right; by rewrite lookup_delete|left; by rewrite lookup_delete_ne].
  Qed.

  Section run.
  Context (e : env) (He : env_right H slow e).

  Lemma step_one before r0 out0 done s fin c rest :
    linv H slow before r0 out0 done s fin -> known H c -> NoDup (done ++ [c]) -> (forall d, d ∈ done -> c ∉ hparents H d) ->
    (forall p, p ∈ hparents H c -> p ∈ before \/ p ∈ done) -> plain_merge H c ->
    (forall lc, head rest = Some lc -> c <> lc_hash lc) ->
    exists s' fin' r' res, process_log e s (group H c ++ rest) = process_log e s' rest /\ linv H slow before r0 out0 (done ++ [c]) s' fin' /\
      step H slow (e_orders e c) (s_repo s) c = Ret (r', res) /\ s_out s' = s_out s ++ [res] /\
      (forall x, x <> c -> r' !! x = s_repo s !! x) /\
      (forall x, s_repo s' !! x = r' !! x \/ s_repo s' !! x = None) /\ good H slow r' c /\
      (forall p, p ∈ hparents H c -> is_Some (s_repo s !! p)).
  Proof.
    intros Hinv Hc Hnd Hnc Hpar Hplain Hhead.
    assert (Hcd : c ∉ done) by (apply NoDup_app in Hnd as (_ & Hn & _); intros ?; eapply Hn; [done|by constructor]).
    assert (Hncc : c ∉ hparents H c) by (by apply c_not_parent).
    assert (Hgood : forall p, p ∈ hparents H c -> good H slow (s_repo s) p).
    { intros p Hp. pose proof (li_repo _ _ _ _ _ _ _ _ Hinv p (Hpar p Hp)) as Hg. rewrite decide_False in Hg; [done|].
      intros Hx. assert (Hxf : p ∈ fin).
      { assert (p ∈ rev fin) as Hin by (rewrite <-(take_drop max_commits_in_checkpoint (rev fin)); apply elem_of_app; by right).
        by rewrite elem_of_list_In, <-in_rev, <-elem_of_list_In in Hin. }
      apply (li_fin _ _ _ _ _ _ _ _ Hinv) in Hxf as [_ Hall]. by apply Hcd, Hall. }
    assert (Hsome : forall p, p ∈ hparents H c -> is_Some (s_repo s !! p)).
    { intros p Hp. destruct (Hgood p Hp) as (fs & -> & _). by eexists. }
    pose proof (li_parts _ _ _ _ _ _ _ _ Hinv) as Hparts. pose proof (env_parents_eq H slow e He c) as Hep.
    destruct (decide (1 < length (hparents H c))) as [Hm|Hm].
    - destruct (group_cons H c) as (g & gs & Eg).
      assert (Hall : Forall (fun lc => lc_hash lc = c) (g :: gs)).
      { apply Forall_forall. intros lc Hlc. apply (group_hash H). by rewrite Eg. }
      apply Forall_cons in Hall as [Hgc Hall]. rewrite Eg. cbn [app].
      rewrite log_merge; [|done|by rewrite Hgc, Hep|by rewrite Hgc|by rewrite Hgc].
      rewrite <-Eg, Hgc. unfold got_merge_parts. cbn [s_mcommit with_parts s_repo s_mparts]. rewrite Hep.
      destruct (merge_ok k H slow HV Hk HS HA (e_orders e c) c (s_repo s) (collect_parts (group H c) ∅)) as (r' & res & fs & Epm & Ho & Hg & Hres & _);
        [by apply He|done|done|done|done|by apply (group_parts 2 H (le_n 2))|].
      rewrite Epm. cbn [out_step].
      match goal with |- context [finish_commit e ?x _ _ _] => set (s1 := x) end.
      destruct (finish_inv k H slow HV Hk HS HA e He before r0 out0 done s fin c s1 r' res Hinv Hnd Hnc Hncc) as (fin' & Hinv'); try done.
      { unfold commit_right. by rewrite decide_True. }
      exists (finish_commit e s1 c r' res), fin', r', res. split; [done|]. split; [done|]. split; [unfold step; by rewrite decide_True|].
      split; [done|]. split; [done|]. split; [|done]. intros x. unfold finish_commit. cbn [s_repo]. apply trim_shrinks.
    - destruct (group_regular 2 H (le_n 2) c ltac:(lia)) as (lc & Eg & Hh & Hch). rewrite Eg. cbn [app].
      rewrite log_regular; [|done|rewrite Hh, Hep; lia]. unfold new_commit. rewrite Hh, Hep.
      rewrite decide_False by done.
      destruct (regular_ok k H slow HV Hk HS c (s_repo s) lc Hc ltac:(lia) Hncc Hgood Hh Hch) as (r' & res & inh & fs & Epr & Ho & Hg & _ & Hres & _).
      assert (Hslow : e_slow e = slow) by by apply He. rewrite Hslow, Epr. cbn [out_step].
      destruct (finish_inv k H slow HV Hk HS HA e He before r0 out0 done s fin c s r' res Hinv Hnd Hnc Hncc) as (fin' & Hinv'); try done.
      { unfold commit_right. by rewrite decide_False. }
      exists (finish_commit e s c r' res), fin', r', res. split; [done|]. split; [done|]. split; [unfold step; rewrite decide_False by done; by rewrite Eg|].
      split; [done|]. split; [done|]. split; [|done]. intros x. unfold finish_commit. cbn [s_repo]. apply trim_shrinks.
  Qed.

  Lemma pf_mono cs : forall kn1 kn2, (forall x, x ∈ kn1 -> x ∈ kn2) -> parents_first H kn1 cs -> parents_first H kn2 cs.
  Proof.
    induction cs as [|y cs IH]; intros kn1 kn2 Hs; cbn; [done|]. intros (? & Hp & Hpf). split_and!; [done| |].
    - intros p Hpp. destruct (Hp p Hpp). split; [by apply Hs|done].
    - eapply IH; [|done]. intros x Hx. apply elem_of_cons in Hx as [->|Hx]; [by constructor|]. constructor. by apply Hs.
  Qed.
  Lemma head_rest c cs : c ∉ cs -> forall lc, head (concat (map (group H) cs)) = Some lc -> c <> lc_hash lc.
  Proof.
    intros Hcr lc Hlc. destruct cs as [|c' cs']; [done|]. cbn in Hlc. destruct (group_cons H c') as (g & gs & Eg). rewrite Eg in Hlc.
    cbn in Hlc. injection Hlc as <-. rewrite (group_hash H c' g) by (rewrite Eg; by constructor). intros ->. apply Hcr. by constructor.
  Qed.

  (** What is needed of the rest of the log. *)
  Definition rest_ok (before done cs : list bytes) : Prop :=
    (forall c, c ∈ cs -> known H c /\ plain_merge H c) /\ NoDup (done ++ cs) /\ (forall d c, d ∈ done -> c ∈ cs -> c ∉ hparents H d) /\
    parents_first H (before ++ done) cs.
  Lemma rest_ok_cons before done c cs : rest_ok before done (c :: cs) ->
    known H c /\ plain_merge H c /\ NoDup (done ++ [c]) /\ (forall d, d ∈ done -> c ∉ hparents H d) /\
    (forall p, p ∈ hparents H c -> (p ∈ before \/ p ∈ done) /\ p ∉ cs /\ p <> c) /\ c ∉ cs /\ rest_ok before (done ++ [c]) cs.
  Proof.
    intros (Hcs & Hnd & Hnp & Hcr & Hpar & Hpf). destruct (Hcs c ltac:(by constructor)) as [Hc Hpl].
    assert (Hnd' : NoDup ((done ++ [c]) ++ cs)) by by rewrite <-app_assoc.
    split; [done|]. split; [done|]. split; [by apply NoDup_app in Hnd' as [? _]|]. split; [intros d Hd; apply Hnp; [done|by constructor]|].
    split.
    { intros p Hp. destruct (Hpar p Hp) as [Hb Hn]. split; [by apply elem_of_app|]. split; [done|]. intros ->. by apply (c_not_parent H HA c). }
    split; [done|]. split; [intros x Hx; apply Hcs; by constructor|]. split; [done|]. split.
    - intros d x Hd Hx. apply elem_of_app in Hd as [Hd|Hd%elem_of_list_singleton]; [apply Hnp; [done|by constructor]|].
      subst d. intros Hxc. by apply (Hpar x Hxc).
    - eapply pf_mono; [|exact Hpf]. intros x Hx. set_solver.
  Qed.

  Lemma run_sol before r0 out0 cs : forall done s fin Z0,
    linv H slow before r0 out0 done s fin -> rest_ok before done cs ->
    (forall x, x ∈ before \/ x ∈ done -> s_repo s !! x = Z0 !! x \/ s_repo s !! x = None) ->
    (forall x, x ∈ before \/ x ∈ done -> good H slow Z0 x) ->
    exists s' fin' Z res, process_log e s (concat (map (group H) cs)) = (s', Ret tt) /\ linv H slow before r0 out0 (done ++ cs) s' fin' /\
      sol Z cs res /\ s_out s' = s_out s ++ map res cs /\ (forall x, x ∉ cs -> Z !! x = Z0 !! x) /\
      (forall x, x ∈ before \/ x ∈ done ++ cs -> s_repo s' !! x = Z !! x \/ s_repo s' !! x = None) /\
      (forall x, x ∈ before \/ x ∈ done ++ cs -> good H slow Z x).
  Proof.
    induction cs as [|c cs IH]; intros done s fin Z0 Hinv Hok HZ HG.
    - exists s, fin, Z0, (fun _ => Result [] ∅). rewrite !app_nil_r. split; [|split_and!; try done].
      + cbn. unfold process_log. cbn. rewrite decide_True; [done|]. apply Hinv.
      + intros c o Hc. by apply elem_of_nil in Hc.
    - destruct (rest_ok_cons _ _ _ _ Hok) as (Hc & Hpl & Hnd & Hnc & Hpar & Hccs & Hok').
      destruct (step_one before r0 out0 done s fin c (concat (map (group H) cs)) Hinv Hc Hnd Hnc (fun p Hp => proj1 (Hpar p Hp)) Hpl (head_rest c cs Hccs))
        as (s1 & fin1 & r1 & rc & E1 & Hinv1 & Est & Eout & Hoth & Hshr & Hgc & Hsome).
      destruct (Hgc) as (fsc & Hfsc & Hgfs).
      destruct (IH (done ++ [c]) s1 fin1 (<[ c := fsc ]> Z0) Hinv1 Hok') as (s' & fin' & Z & res & E' & Hinv' & Hsol & Eo & HZo & HZs & HZg).
      { intros x Hx. destruct (decide (x = c)) as [->|Hne]; [rewrite lookup_insert, <-Hfsc; apply Hshr|].
        rewrite lookup_insert_ne by done. destruct (Hshr x) as [->|?]; [|by right]. rewrite Hoth by done. apply HZ. set_solver. }
      { intros x Hx. destruct (decide (x = c)) as [->|Hne]; [exists fsc; by rewrite lookup_insert|].
        destruct (HG x ltac:(set_solver)) as (fs & Hfs & ?). exists fs. split; [by rewrite lookup_insert_ne|done]. }
      assert (HZc : Z !! c = Some fsc) by (rewrite HZo by done; apply lookup_insert).
      exists s', fin', Z, (fun x => if decide (x = c) then rc else res x). cbn [map concat]. rewrite E1, E'. rewrite <-app_assoc in *.
      split; [done|]. split; [done|]. split; [|split; [|split; [|split]]].
      + intros x o Hx Ho. case_decide as Hxc.
        * subst x. assert (Ho' : any_orders (e_orders e c)) by apply He.
          pose proof (step_orders _ o _ _ _ Hc Hpl Ho' Ho Est) as Est'.
          pose proof (step_frame o (s_repo s) Z c Hc) as HF. rewrite Est' in HF.
          destruct (step H slow o Z c) as [[r2 res2]| |] eqn:E2; cbn in HF.
          -- destruct HF as [F1 F2].
             { intros p Hp. destruct (Hpar p Hp) as (Hb & Hpcs & Hpc). rewrite HZo by done. rewrite lookup_insert_ne by done.
               destruct (HZ p Hb) as [?|Hnone]; [done|]. destruct (Hsome p Hp) as [? Hs]. by rewrite Hs in Hnone. }
             exists r2. rewrite <-F1, <-F2, HZc. done.
          -- exfalso. apply HF. intros p Hp. destruct (Hpar p Hp) as (Hb & Hpcs & Hpc). rewrite HZo by done. rewrite lookup_insert_ne by done.
             destruct (HZ p Hb) as [?|Hnone]; [done|]. destruct (Hsome p Hp) as [? Hs]. by rewrite Hs in Hnone.
          -- exfalso. apply HF. intros p Hp. destruct (Hpar p Hp) as (Hb & Hpcs & Hpc). rewrite HZo by done. rewrite lookup_insert_ne by done.
             destruct (HZ p Hb) as [?|Hnone]; [done|]. destruct (Hsome p Hp) as [? Hs]. by rewrite Hs in Hnone.
        * apply elem_of_cons in Hx as [?|Hx]; [done|]. by apply Hsol.
      + rewrite Eo, Eout, <-app_assoc. cbn [app]. f_equal. rewrite decide_True by done. f_equal. apply map_ext_in. intros x Hx.
        rewrite decide_False; [done|]. intros ->. by apply Hccs, elem_of_list_In.
      + intros x Hx. rewrite HZo by set_solver. rewrite lookup_insert_ne by set_solver. done.
      + done.
      + done.
  Qed.

  Lemma run_fits before r0 out0 cs : forall done s fin Z res,
    linv H slow before r0 out0 done s fin -> rest_ok before done cs -> sol Z cs res ->
    (forall x, x ∈ before \/ x ∈ done -> s_repo s !! x = Z !! x \/ s_repo s !! x = None) ->
    exists s' fin', process_log e s (concat (map (group H) cs)) = (s', Ret tt) /\ linv H slow before r0 out0 (done ++ cs) s' fin' /\
      s_out s' = s_out s ++ map res cs /\
      (forall x, x ∈ before \/ x ∈ done ++ cs -> s_repo s' !! x = Z !! x \/ s_repo s' !! x = None).
  Proof.
    induction cs as [|c cs IH]; intros done s fin Z res Hinv Hok Hsol HZ.
    - exists s, fin. rewrite !app_nil_r. split; [|done]. cbn. unfold process_log. cbn. rewrite decide_True; [done|]. apply Hinv.
    - destruct (rest_ok_cons _ _ _ _ Hok) as (Hc & Hpl & Hnd & Hnc & Hpar & Hccs & Hok').
      destruct (step_one before r0 out0 done s fin c (concat (map (group H) cs)) Hinv Hc Hnd Hnc (fun p Hp => proj1 (Hpar p Hp)) Hpl (head_rest c cs Hccs))
        as (s1 & fin1 & r1 & rc & E1 & Hinv1 & Est & Eout & Hoth & Hshr & _ & Hsome).
      destruct (Hsol c (e_orders e c)) as (r2 & E2 & HZc); [by constructor|apply He|].
      pose proof (step_frame (e_orders e c) (s_repo s) Z c Hc) as HF. rewrite Est, E2 in HF. cbn in HF.
      destruct HF as [F1 F2].
      { intros p Hp. destruct (Hpar p Hp) as (Hb & Hpcs & Hpc). destruct (HZ p Hb) as [?|Hnone]; [done|]. destruct (Hsome p Hp) as [? Hs]. by rewrite Hs in Hnone. }
      destruct (IH (done ++ [c]) s1 fin1 Z res Hinv1 Hok') as (s' & fin' & E' & Hinv' & Eo & HZs).
      { intros x o Hx. apply Hsol. by constructor. }
      { intros x Hx. destruct (Hshr x) as [->|?]; [|by right]. destruct (decide (x = c)) as [->|Hne]; [left; congruence|].
        rewrite Hoth by done. apply HZ. set_solver. }
      exists s', fin'. cbn [map concat]. rewrite E1, E'. rewrite <-app_assoc in *. split; [done|]. split; [done|]. split; [|done].
      rewrite Eo, Eout, <-app_assoc, F1. done.
  Qed.

  Lemma linv_init before r0 : (forall p, p ∈ before -> good H slow r0 p) -> linv H slow before r0 [] [] (pst_init r0) [].
  Proof.
    intros Hb. split; cbn.
    + intros p. by rewrite lookup_empty.
    + constructor.
    + intros p. split; [intros Hp; by apply elem_of_nil in Hp|]. intros [[d Hd] Hall]. specialize (Hall d Hd). by apply elem_of_nil in Hall.
    + intros i j p q n _ Hi. by rewrite lookup_nil in Hi.
    + done.
    + intros p Hp. rewrite decide_False by apply not_elem_of_nil. apply Hb. destruct Hp as [?|Hp]; [done|by apply elem_of_nil in Hp].
    + intros x _ _. by rewrite decide_False by apply not_elem_of_nil.
    + exists []. split; [done|constructor].
    + done.
    + done.
  Qed.
  Lemma rest_ok_init before cs : parents_first H before cs -> (forall c, c ∈ cs -> known H c /\ plain_merge H c) -> rest_ok before [] cs.
  Proof.
    intros Hpf Hcs. split; [done|]. split; [by eapply parents_first_nodup|]. split; [intros d c Hd; by apply elem_of_nil in Hd|].
    by rewrite app_nil_r.
  Qed.
  End run.
End resume.
