(** * Series of incremental runs against one full run (C38) *)
From Verif.Model Require Import Base GoStrings IncBlame LogParser ParentsGraph Process Msgp Checkpoint.
From Verif.Spec Require Import Text UnifiedDiff Attribution GitLog CommitGraph History Processing Checkpoint Resuming.
From Verif.Proofs Require Import CheckpointProofs CheckpointFiles TextLemmas ParsePatch LogParse ParentsGraphProofs BlameOf ProcessRegular ProcessMerge ProcessLoop MergeOrder
  ProcessTop Resume.
From Coq Require Import Lia.

Section ext.
  Context (H1 H : history) (slow : bytes -> bytes -> outcome blame) (HE : extends H1 H) (HC : complete (hi_parents H1)).

  Lemma ext_parents c : known H1 c -> hparents H c = hparents H1 c.
  Proof. intros Hc. unfold hparents, parents. destruct (HE c Hc) as (-> & _). done. Qed.
  Lemma ext_entries c : known H1 c -> entries_of H c = entries_of H1 c.
  Proof.
    intros Hc. destruct (HE c Hc) as (_ & _ & Hd & Hm). unfold entries_of, entry_of. by rewrite (ext_parents c Hc), Hd, Hm.
  Qed.
  Lemma ext_group c : known H1 c -> group H c = group H1 c.
  Proof. intros Hc. unfold group. by rewrite ext_entries. Qed.
  Lemma ext_step o r c : known H1 c -> step H slow o r c = step H1 slow o r c.
  Proof. intros Hc. unfold step. by rewrite (ext_parents c Hc), (ext_group c Hc). Qed.
  Lemma ext_patches c : known H1 c -> patches_of H c = patches_of H1 c.
  Proof. intros Hc. destruct (HE c Hc) as (_ & _ & Hd & _). unfold patches_of. by rewrite (ext_parents c Hc), Hd. Qed.
  Lemma ext_known c : known H1 c -> known H c.
  Proof. intros Hc. unfold known. destruct (HE c Hc) as (-> & _). done. Qed.
  Lemma ext_parent_known c p : known H1 c -> p ∈ hparents H1 c -> known H1 p.
  Proof.
    intros _ Hp. by apply (HC c).
  Qed.

  Lemma ext_blame c f b : blame_of H slow c f b -> known H1 c -> blame_of H1 slow c f b.
  Proof.
    intros HB. induction HB as
      [c p f b Hp Hs Hn _ IH|c f q hs ls Hl Hq Hw Hb Ht Ha|c p f q hs tail b ls Hp Hq Hw Hnb Ht _ IH Hbin Hf Ha|c f q Hl Hq Hw Hb
      |c p f q b Hp Hq Hw Hnb Hne Hfb _ IH Hbin|c p f q hs b b' Hp Hq Hw Hnb Ht _ IH Hbin Hsl|c p f b Hm Hp Hs Ht _ IH
      |c f e txt mps ls Hm He Htx Hlen Hmp Hz _ IH Hf Hml|c f p q Hm Hp Hq Hw Hb|c f p q b Hm Hp Hq Hw Hnb _ IH Hbin];
      intros Hc; destruct (HE c Hc) as (_ & Htr & Hdf & _); pose proof (ext_parents c Hc) as Hpp; pose proof (ext_patches c Hc) as Hpc;
      rewrite ?Htr, ?Hdf, ?Hpp, ?Hpc in *;
      assert (HK : forall p, p ∈ hparents H1 c -> known H1 p) by (intros ? ?; by eapply ext_parent_known).
    - eapply bo_same; [done|done|done|]. apply IH, HK. rewrite Hp. by constructor.
    - by eapply bo_created.
    - eapply bo_changed; try done. apply IH, HK. rewrite Hp. by constructor.
    - by eapply bo_binary.
    - eapply bo_moved_binary; try done. apply IH, HK. rewrite Hp. by constructor.
    - eapply bo_rebuilt; try done. apply IH, HK. rewrite Hp. by constructor.
    - eapply bo_merge_same; try done; [|by apply IH, HK]. destruct (HE p (HK p Hp)) as (_ & <- & _). done.
    - eapply bo_merge; try done. intros i p m Hi Hmi Hne. apply (IH i p m); try done. apply HK. by eapply elem_of_list_lookup_2.
    - by eapply bo_merge_binary.
    - eapply bo_merge_opaque; try done. apply IH. by apply HK.
  Qed.
  Lemma ext_good r r' x : known H1 x -> r !! x = r' !! x -> good H slow r x -> good H1 slow r' x.
  Proof.
    intros Hx Hr (fs & Hfs & Hg). exists fs. split; [by rewrite <-Hr|]. intros f Hf. destruct (HE x Hx) as (_ & Ht & _). rewrite <-Ht in Hf.
    destruct (Hg f Hf) as (b & Hb & HB). exists b. split; [done|]. by apply ext_blame.
  Qed.
End ext.

Lemma with_files_lookup r x : with_files r !! x = None \/ with_files r !! x = r !! x.
Proof.
  destruct (with_files r !! x) as [fs|] eqn:E; [|by left]. right. unfold with_files in E. apply map_filter_lookup_Some in E as [E _]. by rewrite E.
Qed.
Lemma with_files_some r x fs : r !! x = Some fs -> fs <> ∅ -> with_files r !! x = Some fs.
Proof. intros Hr Hne. unfold with_files. by apply map_filter_lookup_Some. Qed.

Lemma pf_filter H1 cs : complete (hi_parents H1) -> forall before, (forall c, c ∈ cs -> known H1 c) ->
  parents_first H1 before cs -> parents_first H1 (filter (fun p => is_Some (hi_parents H1 !! p)) before) cs.
Proof.
  intros HC. induction cs as [|c cs IH]; intros before Hk Hpf; [done|]. cbn in Hpf |- *. destruct Hpf as (Hn & Hp & Hpf).
  split; [done|]. split.
  - intros p Hpc. destruct (Hp p Hpc) as [Hb Hnr]. split; [|done]. apply elem_of_list_filter. split; [|done].
    eapply ext_parent_known; [done| |done]. apply Hk. by constructor.
  - eapply pf_mono; [|apply (IH (c :: before)); [|done]].
    + intros x Hx. apply elem_of_list_filter in Hx as [Hx1 Hx2]. apply elem_of_cons in Hx2 as [->|Hx2]; [by constructor|].
      constructor. by apply elem_of_list_filter.
    + intros d Hd. apply Hk. by constructor.
Qed.

(** The parents of the last commit are among the last finished commits, so they are not evicted. *)
Lemma last_kept H slow before r0 out0 l c s fin p : ProcessLoop.linv H slow before r0 out0 (l ++ [c]) s fin ->
  NoDup (l ++ [c]) -> length (hparents H c) <= max_commits_in_checkpoint ->
  p ∈ hparents H c -> p ∈ before \/ p ∈ l ++ [c] -> good H slow (s_repo s) p.
Proof.
  intros Hinv Hnd Hlen Hp Hin. pose proof (li_repo _ _ _ _ _ _ _ _ Hinv p Hin) as Hg. case_decide as Hd; [|done]. exfalso.
  pose proof (li_nodup _ _ _ _ _ _ _ _ Hinv) as Hnf.
  assert (Hcl : c ∉ l) by (apply NoDup_app in Hnd as (_ & Hn & _); intros Hc; apply (Hn c Hc); by constructor).
  assert (Hpl : ~ finished H l p) by (intros [_ Hall]; by apply Hcl, Hall).
  apply elem_of_list_lookup in Hd as [i Hi]. rewrite lookup_drop in Hi. set (M := max_commits_in_checkpoint) in *.
  assert (HR : forall n x, rev fin !! n = Some x -> fin !! (length fin - S n) = Some x /\ n < length fin).
  { intros n x Hx. rewrite rev_alt in Hx. by apply (reverse_lookup_Some fin n x). }
  destruct (HR _ _ Hi) as [Hpi HpL].
  assert (Hall : forall x, x ∈ take (M + i + 1) (rev fin) -> x ∈ hparents H c).
  { intros x Hx. apply elem_of_list_lookup in Hx as [n Hn]. apply lookup_take_Some in Hn as [Hn Hlt].
    destruct (HR _ _ Hn) as [Hxi HxL]. destruct (decide (n = M + i)) as [->|Hne]; [rewrite Hi in Hn; by injection Hn as <-|].
    assert (Hnx : ~ finished H l x).
    { intros Hfx. apply Hpl. pose proof (li_order _ _ _ _ _ _ _ _ Hinv (length fin - S (M + i)) (length fin - S n) p x (length l) ltac:(lia) Hpi Hxi) as HO.
      rewrite take_app in HO. by apply HO. }
    assert (Hfx : finished H (l ++ [c]) x) by (apply (li_fin _ _ _ _ _ _ _ _ Hinv); by eapply elem_of_list_lookup_2).
    destruct (decide (x ∈ hparents H c)) as [?|Hno]; [done|]. exfalso. apply Hnx. destruct Hfx as [Hex Hch]. split; [done|].
    intros d Hd. apply Hch in Hd as Hd'. apply elem_of_app in Hd' as [?|Hd'%elem_of_list_singleton]; [done|]. by subst d. }
  assert (HL : length (take (M + i + 1) (rev fin)) <= length (hparents H c)).
  { apply NoDup_incl_length.
    - apply NoDup_ListNoDup. assert (Hr : NoDup (rev fin)) by (rewrite rev_alt; change (rev_append fin []) with (reverse fin); by rewrite reverse_Permutation).
      rewrite <-(take_drop (M + i + 1) (rev fin)) in Hr. by apply NoDup_app in Hr as [Hr _].
    - intros x Hx. apply elem_of_list_In, Hall, elem_of_list_In, Hx. }
  rewrite take_length, rev_length in HL. lia.
Qed.

Lemma pf_parent H cs : forall before c p, parents_first H before cs -> c ∈ cs -> p ∈ hparents H c -> p ∈ before \/ p ∈ cs.
Proof.
  induction cs as [|d cs IH]; intros before c p Hpf Hc Hp; [by apply elem_of_nil in Hc|]. cbn in Hpf. destruct Hpf as (_ & Hd & Hpf).
  apply elem_of_cons in Hc as [->|Hc]; [left; by apply Hd|]. destruct (IH _ c p Hpf Hc Hp) as [Hb|?]; [|right; by constructor].
  apply elem_of_cons in Hb as [->|?]; [right; by constructor|by left].
Qed.

Section top.
  Context (k : nat) (H : history) (slow : bytes -> bytes -> outcome blame).
  Context (hash : bytes -> N) (skip : bytes -> pres unit).
  Context (all : list bytes) (Z : repo) (res : bytes -> result).
  Context (HZ : sol H slow Z all res) (HG : forall x, x ∈ all -> good H slow Z x).

  (** Everything in the state is what it is in the full run. *)
  Definition rinv (r : repo) : Prop := forall x, r !! x = None \/ (x ∈ all /\ r !! x = Z !! x).

  Lemma one_run H1 e before cs r : extends H1 H -> run_given H1 slow k e before cs -> (forall c, c ∈ cs -> c ∈ all) ->
    rinv r -> (forall p, p ∈ before -> is_Some (r !! p)) ->
    exists s, process_log e (pst_init r) (map commit_of (git_log H1 cs)) = (s, Ret tt) /\ rinv (s_repo s) /\ s_out s = map res cs /\
      (forall l c p, cs = l ++ [c] -> length (hparents H c) <= max_commits_in_checkpoint -> p ∈ hparents H c -> good H1 slow (s_repo s) p /\ known H1 p /\ p ∈ all).
  Proof.
    intros HE [HV Hk HS HA He Ho Hc] Hall Hr Hb. pose proof (proj1 HV) as HC.
    set (before' := filter (fun p => is_Some (hi_parents H1 !! p)) before).
    assert (Ho' : parents_first H1 before' cs) by (apply pf_filter; [done| |done]; intros c Hin; by apply Hc).
    assert (Hb' : forall p, p ∈ before' -> known H1 p /\ p ∈ all /\ r !! p = Z !! p).
    { intros p Hp. apply elem_of_list_filter in Hp as [Hkn Hp]. destruct (Hb p Hp) as [fs Hfs].
      destruct (Hr p) as [Hnone|[? ?]]; [by rewrite Hfs in Hnone|done]. }
    assert (Hok : rest_ok H1 before' [] cs) by by apply rest_ok_init.
    assert (HZ1 : sol H1 slow Z cs res).
    { intros c o Hcin Hany. rewrite <-(ext_step H1 H slow HE); [|by apply Hc]. apply HZ; [by apply Hall|done]. }
    assert (Hi : linv H1 slow before' r [] [] (pst_init r) []).
    { apply linv_init. intros p Hp. destruct (Hb' p Hp) as (Hkp & Hpa & Hrp). apply (ext_good H1 H slow HE HC Z r p Hkp); [done|by apply HG]. }
    destruct (run_fits k H1 slow HV Hk HS HA e He before' r [] cs [] (pst_init r) [] Z res Hi Hok HZ1) as (s & fin & Es & Hinv & Hout & Hrep).
    { intros x [Hx|Hx]; [|by apply elem_of_nil in Hx]. left. by apply Hb'. }
    exists s. rewrite log_app. split; [exact Es|]. split; [|split; [exact Hout|]].
    2:{ intros l c p -> Hlen Hp. assert (Hkc : known H1 c) by (apply Hc, elem_of_app; right; by constructor).
        rewrite (ext_parents H1 H HE c Hkc) in Hlen, Hp. cbn [app] in Hinv.
        assert (Hin : p ∈ before' \/ p ∈ l ++ [c]) by (by eapply pf_parent; [exact Ho'| |exact Hp]; apply elem_of_app; right; constructor).
        split; [|split].
        - eapply last_kept; [exact Hinv| |done|done|done]. by eapply parents_first_nodup.
        - by eapply ext_parent_known.
        - destruct Hin as [Hin|Hin]; [by apply Hb'|by apply Hall]. }
    intros x.
    destruct (decide (x ∈ before' \/ x ∈ cs)) as [Hx|Hx].
    - destruct (Hrep x Hx) as [Hz|?]; [right|by left]. split; [|done]. destruct Hx as [Hx|Hx]; [by apply Hb'|by apply Hall].
    - pose proof (li_other _ _ _ _ _ _ _ _ Hinv x) as Hoth. cbn [app] in Hoth.
      specialize (Hoth ltac:(tauto) ltac:(tauto)). case_decide; [by left|]. destruct (Hr x) as [Hn|[Hxa Hn]]; rewrite Hoth, Hn; [by left|by right].
  Qed.

  Lemma saved_values P P' : sound P -> encodable hash P -> no_collision hash P -> saved_as hash skip P P' -> values P' = with_files (values P).
  Proof.
    intros Hs He Hn (o1 & o2 & w & Ho1 & Ho2 & Hw & Hr).
    destruct (files_iso hash skip P o1 o2 Hs He Ho1 Ho2) as (w' & R' & ob & ol & Hw' & Hr' & Hiso).
    rewrite Hw in Hw'. injection Hw' as <-. rewrite Hr in Hr'. injection Hr' as <-. by eapply iso_values.
  Qed.
  Lemma rinv_files r : rinv r -> rinv (with_files r).
  Proof. intros Hr x. destruct (with_files_lookup r x) as [->| ->]; [by left|apply Hr]. Qed.

  Lemma runs_inv r outs : runs hash skip H slow k r outs -> (forall cs out c, (cs, out) ∈ outs -> c ∈ cs -> c ∈ all) ->
    rinv r /\ forall cs out, (cs, out) ∈ outs -> out = map res cs.
  Proof.
    induction 1 as [H1 e cs s HE HR E|r outs P P' H1 e before cs s _ IH Hv Hsnd Henc Hnc Hsav HE HR Hb E]; intros Hall.
    - destruct (one_run H1 e [] cs ∅ HE HR) as (s' & E' & Hi & Ho & _).
      + intros c Hc. eapply Hall; [by apply elem_of_list_singleton|done].
      + intros x. left. apply lookup_empty.
      + intros p Hp. by apply elem_of_nil in Hp.
      + rewrite E in E'. injection E' as <-. split; [done|]. intros cs' out Hin. apply elem_of_list_singleton in Hin. injection Hin as -> ->. done.
    - destruct IH as [Hri Houts]. { intros cs' out c Hin. apply (Hall cs' out). apply elem_of_app. by left. }
      pose proof (saved_values P P' Hsnd Henc Hnc Hsav) as Hval.
      destruct (one_run H1 e before cs (values P') HE HR) as (s' & E' & Hi & Ho & _).
      + intros c Hc. eapply Hall; [apply elem_of_app; right; by apply elem_of_list_singleton|done].
      + rewrite Hval, Hv. by apply rinv_files.
      + done.
      + rewrite E in E'. injection E' as <-. split; [done|]. intros cs' out Hin. apply elem_of_app in Hin as [Hin|Hin]; [by apply Houts|].
        apply elem_of_list_singleton in Hin. injection Hin as -> ->. done.
  Qed.

  Lemma good_kept H1 r p : extends H1 H -> known H1 p -> good H1 slow r p -> hi_tree H p <> ∅ -> is_Some (with_files r !! p).
  Proof.
    intros HE Hk (fs & Hfs & Hg) Hne. destruct (HE p Hk) as (_ & Ht & _). rewrite Ht in Hne.
    apply map_choose in Hne as (f & x & Hf). destruct (Hg f ltac:(by eexists)) as (b & Hb & _).
    exists fs. apply with_files_some; [done|]. intros ->. by rewrite lookup_empty in Hb.
  Qed.
  Lemma runs_kept r outs : runs hash skip H slow k r outs -> (forall cs out c, (cs, out) ∈ outs -> c ∈ cs -> c ∈ all) ->
    forall l c out p, last outs = Some (l ++ [c], out) -> length (hparents H c) <= max_commits_in_checkpoint -> p ∈ hparents H c ->
      hi_tree H p <> ∅ -> is_Some (with_files r !! p).
  Proof.
    destruct 1 as [H1 e cs s HE HR E|r outs P P' H1 e before cs s HR0 Hv Hsnd Henc Hnc Hsav HE HR Hb E]; intros Hall l c out p Hlast Hlen Hp Hne.
    - destruct (one_run H1 e [] cs ∅ HE HR) as (s' & E' & Hi & Ho & HK).
      + intros d Hd. eapply Hall; [by apply elem_of_list_singleton|done].
      + intros x. left. apply lookup_empty.
      + intros q Hq. by apply elem_of_nil in Hq.
      + rewrite E in E'. injection E' as <-. injection Hlast as -> _. destruct (HK l c p eq_refl Hlen Hp) as (Hg & Hkn & _). by eapply good_kept.
    - destruct (runs_inv r outs HR0) as [Hri Houts]. { intros cs' out' d Hin. apply (Hall cs' out'). apply elem_of_app. by left. }
      pose proof (saved_values P P' Hsnd Henc Hnc Hsav) as Hval. rewrite last_snoc in Hlast. injection Hlast as -> _.
      destruct (one_run H1 e before (l ++ [c]) (values P') HE HR) as (s' & E' & Hi & Ho & HK).
      + intros d Hd. eapply Hall; [apply elem_of_app; right; by apply elem_of_list_singleton|done].
      + rewrite Hval, Hv. by apply rinv_files.
      + done.
      + rewrite E in E'. injection E' as <-. destruct (HK l c p eq_refl Hlen Hp) as (Hg & Hkn & _). by eapply good_kept.
  Qed.
End top.

(** The full run gives the solution. *)
Lemma full_sol k H slow e all : run_given H slow k e [] all ->
  exists s Z res, process_log e (pst_init ∅) (map commit_of (git_log H all)) = (s, Ret tt) /\ sol H slow Z all res /\
    (forall x, x ∈ all -> good H slow Z x) /\ s_out s = map res all.
Proof.
  intros [HV Hk HS HA He Ho Hc].
  destruct (run_sol k H slow HV Hk HS HA e He [] ∅ [] all [] (pst_init ∅) [] ∅) as (s & fin & Z & res & Es & Hinv & Hsol & Hout & _ & _ & Hg).
  - apply linv_init. intros p Hp. by apply elem_of_nil in Hp.
  - by apply rest_ok_init.
  - intros x [Hx|Hx]; by apply elem_of_nil in Hx.
  - intros x [Hx|Hx]; by apply elem_of_nil in Hx.
  - exists s, Z, res. rewrite log_app. split; [exact Es|]. split; [exact Hsol|]. split; [|exact Hout]. intros x Hx. apply Hg. by right.
Qed.

(** A regular commit whose parent is not in the state cannot be processed. *)
Lemma change_other slow hash parents st ch st' x : regular_change slow hash parents st ch = Ret st' -> x <> hash -> st'.1 !! x = st.1 !! x.
Proof.
  intros E Hx. destruct st as [r res]. unfold regular_change in E. destruct (parse ch) as [d| |]; [|done..]. cbn [obind] in E.
  destruct (d_binary d).
  { case_bool_decide; injection E as <-; [done|]. cbn. by apply set_file_other. }
  case_bool_decide; [injection E as <-; done|].
  match type of E with obind ?a _ = _ => destruct a as [whole| |]; [|done..] end. cbn [obind] in E.
  destruct whole as [pb|]; [injection E as <-; cbn; by apply set_file_other|].
  match type of E with obind ?a _ = _ => destruct a as [pb| |]; [|done..] end. cbn [obind] in E.
  match type of E with obind ?a _ = _ => destruct a as [bl| |]; [|done..] end. cbn [obind] in E. injection E as <-. cbn. by apply set_file_other.
Qed.
Lemma changes_other slow hash parents x l : x <> hash -> forall st st', ofold (regular_change slow hash parents) st l = Ret st' -> st'.1 !! x = st.1 !! x.
Proof.
  intros Hx. induction l as [|ch l IH]; intros st st' E; [cbn in E; by injection E as <-|]. cbn [ofold] in E.
  destruct (regular_change slow hash parents st ch) as [st1| |] eqn:E1; [|done..]. cbn [obind] in E. rewrite (IH st1 st' E). by eapply change_other.
Qed.
Lemma regular_unknown slow r p lc x : r !! p = None -> lc_hash lc <> p -> process_regular slow r [p] lc <> Ret x.
Proof.
  intros Hp Hne E. unfold process_regular in E. destruct (ofold _ _ _) as [[r1 res]| |] eqn:Ef; [|done..]. cbn [obind] in E.
  assert (Hr1 : r1 !! p = None).
  { change r1 with ((r1, res).1). rewrite (changes_other slow (lc_hash lc) [p] p (lc_changes lc) ltac:(congruence) _ _ Ef). cbn.
    unfold add_commit. by rewrite lookup_insert_ne. }
  unfold get_commit_must in E. by rewrite Hr1 in E.
Qed.

(** The last processed commit. *)
Definition last_inv (s : pst) (h : bytes) : Prop := if decide (s_mparts s = ∅) then s_last s = h else s_mcommit s = h.
Lemma new_last e s c s' : new_commit e s c = (s', Ret tt) -> last_inv s' (lc_hash c).
Proof.
  unfold new_commit, last_inv. case_decide as Hl.
  - intros [= <-]. cbn. rewrite decide_False; [done|]. intros E. by apply (insert_non_empty (M := gmap bytes) ∅ (lc_from c) c).
  - destruct (process_regular _ _ _ _) as [[r res]| |]; [|done..]. intros [= <-]. done.
Qed.
Lemma merge_last e s s' : got_merge_parts e s = (s', Ret tt) -> s_mparts s' = ∅ /\ s_last s' = s_mcommit s.
Proof. unfold got_merge_parts. destruct (process_merge _ _ _ _ _) as [[r res]| |]; [|done..]. intros [= <-]. done. Qed.
Lemma commit_last e s c s' : process_commit e s c = (s', Ret tt) -> last_inv s' (lc_hash c).
Proof.
  unfold process_commit. case_decide as Hm; [apply new_last|]. case_bool_decide as Hc.
  - intros [= <-]. unfold last_inv. cbn. rewrite decide_False; [done|]. apply insert_non_empty.
  - destruct (got_merge_parts e s) as [s1 [[]| |]] eqn:Eg; [|done..]. apply new_last.
Qed.
Lemma log_last e s cs c s' : process_log e s (cs ++ [c]) = (s', Ret tt) -> s_last s' = lc_hash c.
Proof.
  unfold process_log. destruct (process_commits e s (cs ++ [c])) as [s1 [[]| |]] eqn:E; [|done..].
  assert (Hi : last_inv s1 (lc_hash c)).
  { revert s E. induction cs as [|d cs IH]; intros s E; cbn in E.
    - destruct (process_commit e s c) as [s2 [[]| |]] eqn:Ec; [|done..]. injection E as <-. by eapply commit_last.
    - destruct (process_commit e s d) as [s2 [[]| |]] eqn:Ec; [|done..]. by eapply IH. }
  unfold last_inv in Hi. case_decide as Hm.
  - by intros [= <-].
  - intros E'. apply merge_last in E' as [_ ->]. done.
Qed.
