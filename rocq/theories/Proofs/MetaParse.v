(** * Parsing of the commit metadata log recovers it *)
From Verif.Model Require Import Base GoStrings CommitMeta.
From Verif.Spec Require Import Text MetaLog.
From Verif.Proofs Require Import TextLemmas TrimProofs MetaNames.
From Coq Require Import Lia.

(** ** Lines *)

Lemma ntc_app a b : no_trailing_cr a -> no_trailing_cr b -> no_trailing_cr (a ++ b).
Proof.
  intros Ha Hb u E. destruct b as [|x b] using rev_ind; [rewrite app_nil_r in E; by eapply Ha|].
  rewrite app_assoc in E. apply app_inj_tail in E as [_ ->]. by eapply Hb.
Qed.
Lemma ntc_not a : CR ∉ a -> no_trailing_cr a.
Proof. intros H u ->. set_solver. Qed.
Lemma not_in_const (c : ascii) (s : bytes) : forallb (fun x => negb (bool_decide (x = c))) s = true -> c ∉ s.
Proof.
  rewrite forallb_forall. intros H Hin%elem_of_list_In. specialize (H _ Hin).
  rewrite bool_decide_eq_true_2 in H by done. done.
Qed.

Definition good_line (l : bytes) : Prop := no_nl l /\ no_trailing_cr l.
Lemma good_app a b : good_line a -> good_line b -> good_line (a ++ b).
Proof. intros [? ?] [? ?]. split; [by apply no_nl_app|by apply ntc_app]. Qed.
Lemma good_const s : forallb (fun x => negb (bool_decide (x = NL))) s = true -> forallb (fun x => negb (bool_decide (x = CR))) s = true -> good_line s.
Proof. intros H1 H2. split; [by apply not_in_const|by apply ntc_not, not_in_const]. Qed.
Lemma good_field s : field s -> good_line s.
Proof. intros (?&?&?&?). split; [done|by apply ntc_not]. Qed.
Lemma good_text s : text_line s -> good_line s.
Proof. intros [? ?]. by split. Qed.
Lemma good_path s : path_text s -> good_line s.
Proof. intros (?&?&?&?&?). by split. Qed.
Lemma good_show n : good_line (show n).
Proof.
  split; [|apply ntc_not]; (eapply digits_not_elem; [done|apply show_digits]).
Qed.
Lemma good_counts c : good_line (counts_text c).
Proof. destruct c; simpl; [|by apply good_const]. apply good_app; [apply good_show|]. apply (good_app [TAB]); [by apply good_const|apply good_show]. Qed.
Lemma regular_field m : regular_mode m -> field m.
Proof. intros [->|[->| ->]]; repeat split; by apply not_in_const. Qed.

Ltac good := repeat match goal with
  | |- good_line (_ ++ _) => apply good_app
  | |- good_line (?c :: ?l) => first [apply good_const; reflexivity | apply (good_app [c] l)]
  | |- good_line (B _) => apply good_const; reflexivity
  | |- good_line [] => apply good_const; reflexivity
  | |- good_line (show _) => apply good_show
  | |- good_line (counts_text _) => apply good_counts
  end.

Lemma good_raw x : wf_change x -> good_line (raw_line x) /\ good_line (stat_line x).
Proof.
  destruct x as [[[om nm oi ni] c] n]. intros (H1&H2&H3&H4&H5). cbn [ri_old_mode ri_new_mode ri_old_id ri_new_id] in *.
  assert (good_line nm) as Hnm.
  { destruct c; [destruct H5 as (_&_&_&[H|[H _]])|destruct H5 as (_&_&_&_&H&_)|destruct H5 as (_&_&_&_&H&_)];
      try (by apply good_field, regular_field). by apply good_field. }
  assert (Hh : good_line (raw_head (RawInfo om nm oi ni))).
  { unfold raw_head. cbn [ri_old_mode ri_new_mode ri_old_id ri_new_id].
    good; try (by apply good_field); done. }
  destruct c as [l p|s from to sh|s from to sh]; split; unfold raw_line, stat_line.
  - destruct H5 as (Hl&Hp&_). apply good_app; [done|]. apply (good_app [l]); [|apply (good_app [TAB]); good; by apply good_path].
    repeat (apply elem_of_cons in Hl as [->|Hl]; [by apply good_const|]). by apply elem_of_nil in Hl.
  - destruct H5 as (Hl&Hp&_). good. by apply good_path.
  - destruct H5 as (Hs&_&Hf&Ht&_). apply good_app; [done|]. good; [by apply good_field|by apply good_path|by apply good_path].
  - destruct H5 as (_&_&_&_&_&_&_&Hn&Hc). good. by split.
  - destruct H5 as (Hs&_&Hf&Ht&_). apply good_app; [done|]. good; [by apply good_field|by apply good_path|by apply good_path].
  - destruct H5 as (_&_&_&_&_&_&_&Hn&Hc). good. by split.
Qed.

Section Parse.
Context {T : Type} (zt : T) (pd : bytes -> option T).
Implicit Types (e : meta_entry T) (p : mparser T).
Notation pline := (parse_meta_line zt pd).
Notation plines := (parse_meta_lines zt pd).

Lemma good_header e : wf_header e -> Forall good_line (entry_header e).
Proof.
  intros (Hsha&Hpar&H1&H2&H3&H4&Hd&_&Hs). unfold entry_header. pose proof (Forall_nil_2 good_line) as Hnil.
    repeat match goal with |- Forall good_line (_ :: _) => apply Forall_cons_2 end; try exact Hnil;
      (apply good_app; good; try (by apply good_text)).
  - apply good_field, Hsha.
  - clear -Hpar. induction Hpar as [|x l [_ Hx] _ IH]; [by apply good_const|]. destruct l as [|y l]; [by apply good_field|].
      rewrite join_cons. good; [by apply good_field|done].
  - apply good_field, Hd.
Qed.

Lemma good_meta e : wf_meta pd e -> Forall good_line (meta_lines e).
Proof.
  intros (Hh&_&_&Hb). apply Forall_app. split; [by apply good_header|].
  - destruct (me_body e) as [cs|ss cm]; simpl in *.
    + apply Forall_app. rewrite !Forall_map. split; (eapply Forall_impl; [exact Hb|]); intros x Hx; by apply good_raw in Hx as [? ?].
    + destruct Hb as (_&Hss&Hcm). apply Forall_app. rewrite !Forall_map. split.
      * eapply Forall_impl; [exact Hss|]. intros [[q sh] n] (_&_&?&?&_). good. by split.
      * eapply Forall_impl; [exact Hcm|]. intros [info q] (Ht&Hn&Hp).
        change (good_line (B "::" ++ info ++ ([TAB] ++ q))).
        destruct Hp as (P1&P2&P3&P4&P5). split.
        -- apply no_nl_app; [by apply not_in_const|]. apply no_nl_app; [done|]. apply no_nl_app; [by apply not_in_const|done].
        -- rewrite app_assoc. intros u E. destruct q as [|x q _] using rev_ind; [done|].
           rewrite !app_assoc in E. apply app_inj_tail in E as [_ ->]. by eapply P4.
Qed.

(** ** The loop *)

Lemma plines_app p p' l r : ofold pline p l = Ret p' -> plines p (l ++ r) = plines p' r.
Proof.
  revert p. induction l as [|x l IH]; intros p; simpl; [by intros [= ->]|].
  destruct (pline p x) as [q| |]; simpl; [apply IH|done|done].
Qed.

Lemma plines_blank p ls : plines p ls = plines p (filter (fun l : bytes => l <> []) ls).
Proof.
  revert p. induction ls as [|x l IH]; intros p; [done|]. rewrite filter_cons. case_decide as Hx.
  - simpl. destruct (pline p x); [apply IH|done|done].
  - assert (x = []) as -> by (destruct (decide (x = [])); [done|tauto]). simpl. apply IH.
Qed.

Lemma scan_meta ls :
  Forall good_line ls -> Forall (fun l => (N.of_nat (length l) < 65536)%N) ls -> (scan default_max (unlines ls)).1 = ls.
Proof.
  intros Hg Hl. rewrite scan_unlines.
  - simpl. clear Hl. induction Hg as [|x l [_ Hx] _ IH]; [done|]. simpl. rewrite drop_cr_no_cr by done. by f_equal.
  - eapply Forall_impl; [exact Hg|]. intros ? []; done.
  - done.
Qed.

(** ** The header of a commit *)

Lemma to_header p l :
  (exists r, l = B "!" ++ r) -> TAB ∉ l -> pline p l = parse_header zt pd l (set_state SHeader p).
Proof.
  intros (r & ->) Ht. unfold parse_meta_line. simpl app. destruct p as [sent c o st]; destruct st; simpl.
  - done.
  - unfold parse_files. simpl has_prefix. cbn [bool_decide]. 
    replace (has_prefix (B ":") ("!"%char :: r)) with false by done.
    unfold parse_numstats. rewrite split_char_no by done. done.
  - unfold parse_numstats. rewrite split_char_no by done. done.
  - done.
Qed.

Lemma field_cut_sha s : SP ∉ s -> cut_sha s = s.
Proof.
  intros H. unfold cut_sha. replace (index_byte SP s) with (@None nat); [done|].
  clear -H. induction s as [|a s IH]; [done|]. simpl. rewrite bool_decide_eq_false_2 by set_solver.
  rewrite <- IH by set_solver. done.
Qed.

Lemma trim_none f s : forallb (fun c => negb (f c)) s = true -> trim f s = s.
Proof.
  intros H. unfold trim. assert (trim_left f s = s) as ->.
  { destruct s as [|a s]; [done|]. simpl in H |- *. destruct (f a); done. }
  unfold trim_right. rewrite <- (rev_involutive s) at 2. f_equal.
  destruct (rev s) as [|a r] eqn:E; [done|]. simpl. destruct (f a) eqn:Ef; [|done].
  rewrite forallb_forall in H. assert (In a s) as Hin by (rewrite in_rev, E; by left). apply H in Hin. by rewrite Ef in Hin.
Qed.

Lemma hdr_parents x p :
  parse_header zt pd (B "!Parents: " ++ x) p =
  do p <- (if beq x [] then Ret p else upd_commit (set_parents (split_char SP x)) p); Ret p.
Proof. done. Qed.
Lemma hdr_committer x p : parse_header zt pd (B "!Committer: " ++ x) p = upd_commit (set_committer_email x) p.
Proof. done. Qed.
Lemma hdr_cname x p : parse_header zt pd (B "!CName: " ++ x) p = upd_commit (set_committer_name x) p.
Proof. done. Qed.
Lemma hdr_author x p : parse_header zt pd (B "!Author: " ++ x) p = upd_commit (set_author_email x) p.
Proof. done. Qed.
Lemma hdr_aname x p : parse_header zt pd (B "!AName: " ++ x) p = upd_commit (set_author_name x) p.
Proof. done. Qed.
Lemma hdr_message x p : parse_header zt pd (B "!Message: " ++ x) p = do p <- upd_commit (set_message x) p; Ret (set_state SFiles p).
Proof. done. Qed.
Lemma hdr_date x t p : trim_space x = x -> pd x = Some t -> parse_header zt pd (B "!Date: " ++ x) p = upd_commit (set_date t) p.
Proof.
  intros H1 H2. change (parse_header zt pd (B "!Date: " ++ x) p) with
    (match pd (trim_space x) with Some t => upd_commit (set_date t) p | None => match mp_commit p with Some c => Err (B "error parsing commit " ++ mc_sha c) | None => nil_deref end end).
  by rewrite H1, H2.
Qed.
Lemma in_header sent c o pre x : pre <> [] -> pline (MParser sent c o SHeader) (pre ++ x) = parse_header zt pd (pre ++ x) (MParser sent c o SHeader).
Proof. intros H. destruct pre; done. Qed.

Lemma header_ok e p :
  wf_meta pd e ->
  ofold pline p (entry_header e) =
  Ret (MParser (mp_sent p ++ pending (mp_commit p))
    (Some (MCommit (me_sha e) (me_author_name e) (me_author_email e) (me_committer_name e) (me_committer_email e) (me_time e)
             (mp_ordinal p + 1)%Z (me_subject e) (me_parents e) ∅))
    (mp_ordinal p + 1)%Z SFiles).
Proof.
  intros ((Hsha&Hpar&H1&H2&H3&H4&Hd&Hsp&Hs)&Htm&_). unfold entry_header. cbn [ofold].
  rewrite to_header; [|by eexists|].
  2:{ apply not_elem_of_app. split; [by apply not_in_const|]. apply Hsha. }
  unfold parse_header at 1. rewrite has_prefix_app. cbn [obind].
  change (drop 6 (B "!SHA: " ++ me_sha e)) with (me_sha e). rewrite field_cut_sha by apply Hsha.
  cbn [mp_sent mp_commit mp_ordinal mp_state set_state].
  rewrite in_header by done. rewrite hdr_parents.
  assert (forall c : mparser T, (if beq (join [SP] (me_parents e)) [] then Ret c else upd_commit (set_parents (split_char SP (join [SP] (me_parents e)))) c) =
    match mp_commit c with Some k => Ret (MParser (mp_sent c) (Some (if bool_decide (me_parents e = []) then k else set_parents (me_parents e) k)) (mp_ordinal c) (mp_state c)) | None => if bool_decide (me_parents e = []) then Ret c else nil_deref end) as Hp.
  { intros c. clear -Hpar. destruct (me_parents e) as [|x l].
    - simpl. destruct c as [? [?|] ? ?]; done.
    - rewrite bool_decide_eq_false_2 by done. unfold beq. rewrite bool_decide_eq_false_2.
      + rewrite split_char_join; [done|done|]. eapply Forall_impl; [exact Hpar|]. intros y [_ Hy]. apply Hy.
      + inversion Hpar as [|? ? [Hx _]]; subst. destruct l; simpl; destruct x; done. }
  rewrite Hp. clear Hp. cbn [mp_sent mp_commit mp_ordinal mp_state obind].
  rewrite in_header by done. rewrite hdr_committer. cbn [upd_commit mp_sent mp_commit mp_ordinal mp_state obind].
  rewrite in_header by done. rewrite hdr_cname. cbn [upd_commit mp_sent mp_commit mp_ordinal mp_state obind].
  rewrite in_header by done. rewrite hdr_author. cbn [upd_commit mp_sent mp_commit mp_ordinal mp_state obind].
  rewrite in_header by done. rewrite hdr_aname. cbn [upd_commit mp_sent mp_commit mp_ordinal mp_state obind].
  rewrite in_header by done. rewrite (hdr_date _ (me_time e)); [|by apply trim_bare|done]. cbn [upd_commit mp_sent mp_commit mp_ordinal mp_state obind].
  rewrite in_header by done. rewrite hdr_message. cbn [upd_commit mp_sent mp_commit mp_ordinal mp_state obind set_state].
  case_bool_decide as Ep; simpl; [by rewrite Ep|done].
Qed.

(** ** The changes of a regular commit *)

(** The state after the header, with the files found so far. *)
Definition at_files sent c o st (m : gmap bytes cfile) : mparser T := MParser sent (Some (set_files m c)) o st.

Lemma set_files_twice m m' (c : mcommit T) : set_files m (set_files m' c) = set_files m c.
Proof. done. Qed.

(** The entries written by a raw line. *)
Definition raw_entries (x : raw_info * change * counts) : list (bytes * cfile) :=
  let '(r, c, _) := x in
  if decide (ri_new_mode r = B "100644" \/ ri_new_mode r = B "100755" \/ ri_new_mode r = B "000000") then
    match c with
    | Plain l p => [(p, plain_file p (status_of l))]
    | Renamed _ from to _ => [(from, CFile from Removed true false from to [] 0 0 false); (to, CFile to Added true false from to [] 0 0 false)]
    | Copied _ from to _ => [(to, CFile to Added false true [] [] from 0 0 false)]
    end
  else [].

Lemma path_tl q : path_text q -> trim_left (fun c => bool_decide (c = SP)) q = q.
Proof.
  intros (Hq&_&_&_&Hs). destruct q as [|a q]; [done|]. apply trim_left_stop. apply bool_decide_eq_false_2.
  intros ->. by eapply Hs.
Qed.

(** What [raw_step] needs of a change: as [wf_change], but nothing about the shown name. *)
Definition wf_raw (x : raw_info * change * counts) : Prop :=
  let '(r, c, n) := x in
  field (ri_old_mode r) /\ field (ri_old_id r) /\ field (ri_new_id r) /\
  match c with
  | Plain l p => l ∈ ["A"; "D"; "M"; "T"]%char /\ path_text p /\ field (ri_new_mode r)
  | Renamed s from to shown | Copied s from to shown => field s /\ s <> [] /\ path_text from /\ path_text to /\ regular_mode (ri_new_mode r)
  end.
Lemma wf_change_raw x : wf_change x -> wf_raw x.
Proof.
  destruct x as [[r c] n]. intros (H1&H2&H3&_&H5). split; [done|]. split; [done|]. split; [done|].
  destruct c; [destruct H5 as (?&?&_&[?|[? _]])|..]; [by split; [|split; [|apply regular_field]]|done|tauto|tauto].
Qed.

Lemma raw_step x sent c o m :
  wf_raw x ->
  pline (at_files sent c o SFiles m) (raw_line x) =
  Ret (at_files sent c o SFiles (fold_left (fun m kv => <[kv.1 := kv.2]> m) (raw_entries x) m)).
Proof.
  destruct x as [[[om nm oi ni] ch] n]. intros (H1&H2&H3&H5).
  cbn [ri_old_mode ri_new_mode ri_old_id ri_new_id] in *.
  assert (Hnm : field nm).
  { destruct ch; [apply H5|destruct H5 as (_&_&_&_&H)|destruct H5 as (_&_&_&_&H)]; by apply regular_field. }
  set (tail := match ch with Plain l p => [l] ++ [TAB] ++ p | Renamed s from to _ => B "R" ++ s ++ [TAB] ++ from ++ [TAB] ++ to
     | Copied s from to _ => B "C" ++ s ++ [TAB] ++ from ++ [TAB] ++ to end).
  assert (Hl : raw_line (RawInfo om nm oi ni, ch, n) = (":"%char :: om) ++ SP :: nm ++ SP :: oi ++ SP :: ni ++ SP :: tail).
  { unfold raw_line, raw_head. simpl. fold tail. by rewrite <- !app_assoc; simpl; rewrite <- !app_assoc; simpl; rewrite <- !app_assoc; simpl; rewrite <- !app_assoc. }
  rewrite Hl. clear Hl. unfold parse_meta_line. cbn [app at_files mp_state].
  unfold parse_files. replace (has_prefix (B ":") _) with true by done.
  change (":"%char :: om ++ SP :: nm ++ SP :: oi ++ SP :: ni ++ SP :: tail) with ((":"%char :: om) ++ SP :: nm ++ SP :: oi ++ SP :: ni ++ SP :: tail).
  assert (SP ∉ ":"%char :: om) by (apply not_elem_of_cons; split; [done|apply H1]).
  rewrite (split_char_cons SP (":"%char :: om)) by done.
  rewrite (split_char_cons SP nm) by apply Hnm. rewrite (split_char_cons SP oi) by apply H2. rewrite (split_char_cons SP ni) by apply H3.
  cbn match. rewrite join_split. unfold raw_entries. cbn [ri_new_mode].
  replace (beq nm (B "100644") || beq nm (B "100755") || beq nm (B "000000")) with (bool_decide (regular_mode nm)).
  2:{ unfold regular_mode, beq. by rewrite !bool_decide_or, orb_assoc. }
  case_bool_decide as Hr; (case_decide as Hr'; [|try contradiction]); [|contradiction|done].
  destruct ch as [l q|s from to sh|s from to sh].
  - destruct H5 as (Hl & Hq & _). unfold tail.
    assert (TAB ∉ [l]) by (repeat (apply elem_of_cons in Hl as [->|Hl]; [by apply not_in_const|]); by apply elem_of_nil in Hl).
    change ([l] ++ [TAB] ++ q) with ([l] ++ TAB :: q). rewrite split_char_cons by done. rewrite split_char_no by apply Hq.
    cbn [raw_files length Nat.eqb]. rewrite path_tl by done.
    assert (to_commit_status [l] = Ret (status_of l)) as ->
      by (repeat (apply elem_of_cons in Hl as [->|Hl]; [done|]); by apply elem_of_nil in Hl).
    cbn [obind upd_commit mp_commit mp_sent mp_ordinal mp_state fold_left]. done.
  - destruct H5 as (Hs & Hs0 & Hf & Ht & _). unfold tail.
    assert (TAB ∉ B "R" ++ s) by (apply not_elem_of_app; split; [by apply not_in_const|apply Hs]).
    change (B "R" ++ s ++ [TAB] ++ from ++ [TAB] ++ to) with (B "R" ++ (s ++ TAB :: from ++ TAB :: to)). rewrite (app_assoc (B "R")).
    rewrite split_char_cons by done. rewrite (split_char_cons TAB from) by apply Hf. rewrite split_char_no by apply Ht.
    unfold raw_files. replace (Nat.eqb (length (B "R" ++ s)) 1) with false.
    2:{ destruct s; done. }
    rewrite has_prefix_app. rewrite !path_tl by done. done.
  - destruct H5 as (Hs & Hs0 & Hf & Ht & _). unfold tail.
    assert (TAB ∉ B "C" ++ s) by (apply not_elem_of_app; split; [by apply not_in_const|apply Hs]).
    change (B "C" ++ s ++ [TAB] ++ from ++ [TAB] ++ to) with (B "C" ++ (s ++ TAB :: from ++ TAB :: to)). rewrite (app_assoc (B "C")).
    rewrite split_char_cons by done. rewrite (split_char_cons TAB from) by apply Hf. rewrite split_char_no by apply Ht.
    unfold raw_files. replace (Nat.eqb (length (B "C" ++ s)) 1) with false.
    2:{ destruct s; done. }
    change (has_prefix (B "R") (B "C" ++ s)) with false.
    rewrite has_prefix_app. rewrite !path_tl by done. done.
Qed.

(** Update of an entry by the counts. *)
Definition with_counts (n : counts) (f : cfile) : cfile :=
  match n with
  | Text a d => CFile (cf_name f) (cf_status f) (cf_renamed f) (cf_copied f) (cf_renamed_from f) (cf_renamed_to f) (cf_copied_from f) (Z.of_N a) (Z.of_N d) (cf_binary f)
  | Bin => CFile (cf_name f) (cf_status f) (cf_renamed f) (cf_copied f) (cf_renamed_from f) (cf_renamed_to f) (cf_copied_from f) (cf_adds f) (cf_dels f) true
  end.

Lemma parse_int32_show a : (a < 2147483648)%N -> parse_int32 (show a) = Z.of_N a.
Proof. intros H. unfold parse_int32. rewrite atoi_show. lia. Qed.
Lemma show_not_dash a : beq (show a) (B "-") = false.
Proof.
  apply bool_decide_eq_false_2. intros E. pose proof (show_digits a) as H. by rewrite E in H.
Qed.

Lemma stat_step st n shown q sent c o m :
  st = SFiles \/ st = SNumStats ->
  wf_counts n -> TAB ∉ shown -> get_filename shown = q ->
  pline (at_files sent c o st m) (counts_text n ++ [TAB] ++ shown) =
  Ret (at_files sent c o SNumStats (<[q := with_counts n (default (plain_file q Modified) (m !! q))]> m)).
Proof.
  intros Hst Hn Ht Hq.
  assert (Hsp : exists a d, split_char TAB (counts_text n ++ [TAB] ++ shown) = [a; d; shown] /\
    forall f, set_stats a d f = with_counts n f).
  { destruct n as [a d|]; simpl.
    - exists (show a), (show d). split.
      + change (TAB :: shown) with ([TAB] ++ shown). rewrite <- app_assoc. change ([TAB] ++ shown) with (TAB :: shown).
        change ((TAB :: show d) ++ TAB :: shown) with (TAB :: show d ++ TAB :: shown).
        assert (forall z, TAB ∉ show z) by (intros z; eapply digits_not_elem; [done|apply show_digits]).
        rewrite split_char_cons by done. rewrite split_char_cons by done. by rewrite split_char_no by done.
      + intros f. unfold set_stats. rewrite show_not_dash. destruct Hn. by rewrite !parse_int32_show by done.
    - exists (B "-"), (B "-"). split; [|done]. by rewrite split_char_no by done. }
  destruct Hsp as (a & d & Hsp & Hset).
  assert (Hnum : forall st, parse_numstats zt pd (counts_text n ++ [TAB] ++ shown) (at_files sent c o st m) =
    Ret (at_files sent c o st (<[q := with_counts n (default (plain_file q Modified) (m !! q))]> m))).
  { intros st'. unfold parse_numstats. rewrite Hsp. rewrite Hq. cbn. by rewrite Hset. }
  destruct (counts_text n ++ [TAB] ++ shown) as [|x l] eqn:El; [by destruct n; [destruct (show adds)|]|].
  unfold parse_meta_line. destruct Hst as [-> | ->]; cbn [at_files mp_state].
  - unfold parse_files. replace (has_prefix (B ":") (x :: l)) with false; [apply (Hnum SNumStats)|].
    symmetry. destruct n as [a' d'|]; simpl in El; [|by injection El as <- <-].
    pose proof (show_digits a') as Hd. pose proof (show_not_nil a'). destruct (show a') as [|y s] eqn:Es; [done|].
    injection El as <- <-. simpl in Hd. apply andb_prop in Hd as [Hd _]. simpl.
    rewrite bool_decide_eq_false_2; [done|]. intros <-. done.
  - apply (Hnum SNumStats).
Qed.

(** ** Whole commits *)

Notation ins := (fun (m : gmap bytes cfile) (kv : bytes * cfile) => <[kv.1 := kv.2]> m).

Lemma fold_ins l (m : gmap bytes cfile) : NoDup (map fst l) -> fold_left ins l m = list_to_map l ∪ m.
Proof.
  revert m. induction l as [|[k v] l IH]; intros m H; simpl.
  - by rewrite (left_id_L ∅ (∪)).
  - simpl in H. apply NoDup_cons in H as [Hk H]. rewrite IH by done. rewrite <- insert_union_l. rewrite insert_union_r; [done|].
    apply not_elem_of_list_to_map_1. exact Hk.
Qed.

Lemma raw_steps cs sent c o m :
  Forall wf_change cs ->
  ofold pline (at_files sent c o SFiles m) (map raw_line cs) =
  Ret (at_files sent c o SFiles (fold_left ins (concat (map raw_entries cs)) m)).
Proof.
  intros H. revert m. induction H as [|x cs Hx _ IH]; intros m; [done|].
  cbn [map ofold]. rewrite raw_step by by apply wf_change_raw. cbn [obind]. rewrite IH. simpl. by rewrite fold_left_app.
Qed.

Definition new_name (ch : change) : bytes := match ch with Plain _ q => q | Renamed _ _ q _ => q | Copied _ _ q _ => q end.
Definition shown_name (ch : change) : bytes := match ch with Plain _ q => q | Renamed _ _ _ q => q | Copied _ _ _ q => q end.

Lemma raw_keys x : sublist (map fst (raw_entries x)) (map fst (change_files x)).
Proof.
  destruct x as [[r ch] n]. unfold raw_entries. case_decide; [|destruct ch; simpl; repeat constructor].
  destruct ch; simpl; reflexivity.
Qed.
Lemma raw_keys_all cs k : k ∈ map fst (concat (map raw_entries cs)) -> k ∈ map fst (concat (map change_files cs)).
Proof.
  induction cs as [|x cs IH]; [done|]. simpl. rewrite !map_app, !elem_of_app. intros [H|H]; [left|right; by apply IH].
  eapply elem_of_submseteq; [exact H|]. apply sublist_submseteq, raw_keys.
Qed.

Lemma lookup_app_r (A l : list (bytes * cfile)) q :
  q ∉ map fst A -> (list_to_map (A ++ l) : gmap bytes cfile) !! q = (list_to_map l : gmap bytes cfile) !! q.
Proof. intros H. rewrite list_to_map_app. apply lookup_union_r. by apply not_elem_of_list_to_map_1. Qed.
Lemma insert_app_r (A l : list (bytes * cfile)) q v :
  q ∉ map fst A -> <[q := v]> (list_to_map (A ++ l) : gmap bytes cfile) = list_to_map A ∪ <[q := v]> (list_to_map l).
Proof. intros H. rewrite list_to_map_app. apply insert_union_r. by apply not_elem_of_list_to_map_1. Qed.

Lemma update_entry x A R :
  wf_change x -> NoDup (map fst (A ++ change_files x ++ R)) ->
  let '(_, ch, n) := x in
  let q := new_name ch in
  let m : gmap bytes cfile := list_to_map (A ++ raw_entries x ++ R) in
  <[q := with_counts n (default (plain_file q Modified) (m !! q))]> m = list_to_map (A ++ change_files x ++ R).
Proof.
  destruct x as [[r ch] n]. intros (_&_&_&_&H5) Hd. simpl.
  rewrite map_app in Hd. apply NoDup_app in Hd as (_ & HA & Hd).
  assert (HqA : new_name ch ∉ map fst A).
  { intros Hin. apply (HA _ Hin). rewrite map_app, elem_of_app. left. destruct ch; simpl; [left|right; left|left]. }
  rewrite lookup_app_r by done. rewrite insert_app_r by done. rewrite (list_to_map_app A). f_equal.
  rewrite map_app in Hd. apply NoDup_app in Hd as (Hx & HR & _).
  unfold raw_entries. case_decide as Hr.
  - destruct ch as [l q|s from to sh|s from to sh]; simpl.
    + rewrite lookup_insert, insert_insert. simpl. by destruct n.
    + simpl in Hx. apply NoDup_cons in Hx as [Hft _]. rewrite lookup_insert_ne by set_solver. rewrite lookup_insert.
      rewrite insert_commute by set_solver. rewrite insert_insert. simpl. by destruct n.
    + rewrite lookup_insert, insert_insert. simpl. by destruct n.
  - destruct ch as [l q|s from to sh|s from to sh]; simpl.
    2:{ destruct H5 as (_&_&_&_&H&_). contradiction. }
    2:{ destruct H5 as (_&_&_&_&H&_). contradiction. }
    destruct H5 as (_&_&_&[H|[_ Hm]]); [contradiction|].
    rewrite not_elem_of_list_to_map_1.
    + simpl. rewrite Hm. by destruct n.
    + apply HR. simpl. left.
Qed.

Definition st_after {A} (l : list A) (st : mstate) : mstate := match l with [] => st | _ => SNumStats end.

Lemma stats_steps cs st sent c o A :
  st = SFiles \/ st = SNumStats -> Forall wf_change cs -> NoDup (map fst (A ++ concat (map change_files cs))) ->
  ofold pline (at_files sent c o st (list_to_map (A ++ concat (map raw_entries cs)))) (map stat_line cs) =
  Ret (at_files sent c o (st_after cs st) (list_to_map (A ++ concat (map change_files cs)))).
Proof.
  intros Hst H. revert st Hst A. induction H as [|x cs Hx _ IH]; intros st Hst A Hd; [done|].
  cbn [map ofold concat]. destruct x as [[r ch] n].
  change (stat_line (r, ch, n)) with (counts_text n ++ [TAB] ++ shown_name ch).
  rewrite (stat_step _ _ _ (new_name ch)).
  - cbn [obind]. pose proof (update_entry (r, ch, n) A (concat (map raw_entries cs)) Hx) as Hu. cbv beta iota zeta in Hu.
    rewrite Hu.
    + rewrite (app_assoc A). rewrite IH; [|by right|by rewrite <- app_assoc].
      rewrite <- app_assoc. destruct cs; done.
    + rewrite app_assoc. rewrite map_app. cbn [map concat] in Hd. rewrite app_assoc, map_app in Hd. apply NoDup_app in Hd as (H1 & H2 & H3).
      apply NoDup_app. split; [done|]. split.
      * intros k Hk Hin. apply raw_keys_all in Hin. by eapply H2.
      * assert (Hs : sublist (map fst (concat (map raw_entries cs))) (map fst (concat (map change_files cs)))).
        { clear. induction cs as [|y cs IH]; [reflexivity|]. simpl. rewrite !map_app. apply sublist_app; [apply raw_keys|done]. }
        clear -Hs H3. induction Hs as [|z l1 l2 Hs IH|z l1 l2 Hs IH]; [done| |].
        -- apply NoDup_cons in H3 as [Hz H3]. apply NoDup_cons. split; [|by apply IH].
           intros Hin. apply Hz. eapply elem_of_submseteq; [exact Hin|]. by apply sublist_submseteq.
        -- apply NoDup_cons in H3 as [_ H3]. by apply IH.
  - done.
  - apply Hx.
  - destruct Hx as (_&_&_&_&H5). destruct ch; simpl; [apply H5|apply H5|apply H5].
  - destruct Hx as (_&_&_&_&H5). destruct ch; simpl; [apply get_filename_plain|apply get_filename_ok|apply get_filename_ok]; apply H5.
Qed.

Lemma merge_stats_steps ss st sent c o A :
  st = SFiles \/ st = SNumStats ->
  Forall (fun '(p, shown, n) => stands_for shown p /\ TAB ∉ shown /\ NL ∉ shown /\ no_trailing_cr shown /\ shown <> [] /\ wf_counts n) ss ->
  NoDup (map fst (A ++ body_files (MergeStats ss []))) ->
  ofold pline (at_files sent c o st (list_to_map A)) (map (fun '(_, shown, n) => counts_text n ++ [TAB] ++ shown) ss) =
  Ret (at_files sent c o (st_after ss st) (list_to_map (A ++ body_files (MergeStats ss [])))).
Proof.
  intros Hst H. revert st Hst A. induction H as [|[[q sh] n] ss Hx _ IH]; intros st Hst A Hd.
  { simpl. by rewrite app_nil_r. }
  destruct Hx as (H1&H2&H3&H4&H5&H6). cbn [map ofold]. rewrite (stat_step _ _ _ q) by (try done; by apply get_filename_ok). cbn [obind].
  assert (HqA : q ∉ map fst A).
  { rewrite map_app in Hd. apply NoDup_app in Hd as (_&HA&_). intros Hin. apply (HA _ Hin). left. }
  rewrite not_elem_of_list_to_map_1 by done. cbn [default].
  rewrite <- (app_nil_r A) at 1. rewrite insert_app_r by done. simpl list_to_map at 2.
  assert (list_to_map A ∪ {[q := with_counts n (plain_file q Modified)]} =
    (list_to_map (A ++ [(q, CFile q Modified false false [] [] [] (adds_of n) (dels_of n) (is_bin n))]) : gmap bytes cfile)) as E.
  { rewrite list_to_map_app. f_equal. simpl. by destruct n. }
  change (<[q := with_counts n (plain_file q Modified)]> ∅) with ({[q := with_counts n (plain_file q Modified)]} : gmap bytes cfile).
  rewrite E. rewrite IH; [|by right|].
  - rewrite <- app_assoc. destruct ss; done.
  - rewrite <- app_assoc. exact Hd.
Qed.

Lemma combined_steps cm st sent c o m :
  st = SNumStats \/ st = SDiff ->
  Forall (fun '(info, p) => TAB ∉ info /\ NL ∉ info /\ path_text p) cm ->
  exists st', ofold pline (at_files sent c o st m) (map (fun '(info, p) => B "::" ++ info ++ [TAB] ++ p) cm) = Ret (at_files sent c o st' m).
Proof.
  intros Hst H. revert st Hst. induction H as [|[info q] cm (Ht&Hn&Hq) _ IH]; intros st Hst; [by exists st|].
  cbn [map ofold].
  assert (pline (at_files sent c o st m) (B "::" ++ info ++ [TAB] ++ q) = Ret (at_files sent c o SDiff m)) as ->.
  { unfold parse_meta_line. cbn [app B list_ascii_of_string]. destruct Hst as [-> | ->]; cbn [at_files mp_state]; [|done].
    unfold parse_numstats. change (":"%char :: ":"%char :: info ++ TAB :: q) with ((":"%char :: ":"%char :: info) ++ TAB :: q).
    rewrite split_char_cons by (apply not_elem_of_cons; split; [done|apply not_elem_of_cons; split; done]).
    rewrite split_char_no by apply Hq. done. }
  cbn [obind]. apply IH. by right.
Qed.

Lemma body_ok e sent c o :
  wf_body (me_body e) ->
  exists st, ofold pline (at_files sent c o SFiles ∅) (body_lines (me_body e)) =
    Ret (at_files sent c o st (list_to_map (body_files (me_body e)))).
Proof.
  intros [Hd Hb]. destruct (me_body e) as [cs|ss cm]; cbn [body_lines body_files] in *.
  - exists (st_after cs SFiles). rewrite ofold_app, raw_steps by done. cbn [obind].
    rewrite fold_ins.
    + rewrite (right_id_L ∅ (∪)). apply (stats_steps cs SFiles sent c o []); [by left|done|done].
    + assert (Hs : sublist (map fst (concat (map raw_entries cs))) (map fst (concat (map change_files cs)))).
      { clear. induction cs as [|y cs IH]; [reflexivity|]. simpl. rewrite !map_app. apply sublist_app; [apply raw_keys|done]. }
      clear -Hs Hd. induction Hs as [|z l1 l2 Hs IH|z l1 l2 Hs IH]; [done| |].
      -- apply NoDup_cons in Hd as [Hz H3]. apply NoDup_cons. split; [|by apply IH].
         intros Hin. apply Hz. eapply elem_of_submseteq; [exact Hin|]. by apply sublist_submseteq.
      -- apply NoDup_cons in Hd as [_ H3]. by apply IH.
  - destruct Hb as (H0 & Hss & Hcm). rewrite ofold_app.
    change (at_files sent c o SFiles ∅) with (at_files sent c o SFiles (list_to_map [])).
    rewrite (merge_stats_steps ss SFiles sent c o []); [|by left|done|done].
    cbn [obind]. destruct ss as [|s ss].
    + rewrite H0 by done. by eexists.
    + apply combined_steps; [by left|done].
Qed.

Lemma entry_ok e p :
  wf_meta pd e ->
  exists st, ofold pline p (meta_lines e) =
  Ret (MParser (mp_sent p ++ pending (mp_commit p))
    (Some (MCommit (me_sha e) (me_author_name e) (me_author_email e) (me_committer_name e) (me_committer_email e) (me_time e)
             (mp_ordinal p + 1)%Z (me_subject e) (me_parents e) (list_to_map (body_files (me_body e)))))
    (mp_ordinal p + 1)%Z st).
Proof.
  intros He. unfold meta_lines. rewrite ofold_app, header_ok by done. cbn [obind].
  destruct (body_ok e (mp_sent p ++ pending (mp_commit p))
    (MCommit (me_sha e) (me_author_name e) (me_author_email e) (me_committer_name e) (me_committer_email e) (me_time e)
             (mp_ordinal p + 1)%Z (me_subject e) (me_parents e) ∅) (mp_ordinal p + 1)%Z) as [st Hst]; [apply He|].
  exists st. exact Hst.
Qed.

Lemma pending_app_lines es p n :
  Forall (wf_meta pd) es -> mp_ordinal p = Z.of_nat n ->
  plines p (concat (map meta_lines es)) =
  (mp_sent p ++ pending (mp_commit p) ++ imap (fun i e => meta_commit (n + S i) e) es, Ret tt).
Proof.
  intros H. revert p n. induction H as [|e es He _ IH]; intros p n Hn.
  - simpl. by rewrite app_nil_r.
  - cbn [map concat]. destruct (entry_ok e p He) as [st Hst]. rewrite (plines_app _ _ _ _ Hst).
    rewrite (IH _ (S n)); [|simpl; lia]. cbn [mp_sent mp_commit pending mc_sha].
    replace (beq (me_sha e) []) with false.
    2:{ symmetry. apply bool_decide_eq_false_2. apply He. }
    f_equal. rewrite <- !app_assoc. f_equal. f_equal. simpl. f_equal.
    + unfold meta_commit. rewrite Hn. f_equal. lia.
    + apply imap_ext. intros i x Hi. simpl. f_equal. lia.
Qed.

Theorem run_meta_ok es ls :
  Forall (wf_meta pd) es -> meta_log es ls -> Forall (fun l => (N.of_nat (length l) < 65536)%N) ls ->
  run_meta zt pd (unlines ls) = (imap (fun i e => meta_commit (S i) e) es, Ret tt).
Proof.
  intros He Hl Hlen. unfold run_meta. rewrite scan_meta; [|..|done].
  - rewrite plines_blank. unfold meta_log in Hl. 
    assert (filter (fun l : bytes => l <> []) ls = concat (map meta_lines es)) as -> by exact Hl.
    rewrite (pending_app_lines es _ 0); done.
  - assert (Hg : Forall good_line (concat (map meta_lines es))).
    { clear -He. induction He as [|e es H _ IH]; [constructor|]. cbn [map concat]. apply Forall_app. split; [by apply good_meta|done]. }
    unfold meta_log in Hl. rewrite <- Hl in Hg. rewrite Forall_forall in Hg |- *. intros x Hx.
    destruct (decide (x = [])) as [->|Hne]; [by apply good_const|]. apply Hg. by apply elem_of_list_filter.
Qed.

(** The changed file of a commit with one change whose path contains an arrow. *)
Lemma arrow_change e r l q n st :
  wf_meta pd e -> me_body e = Changes [] ->
  field (ri_old_mode r) -> field (ri_old_id r) -> field (ri_new_id r) -> regular_mode (ri_new_mode r) ->
  l ∈ ["A"; "D"; "M"; "T"]%char -> status_of l = st -> path_text q -> has_arrow q -> wf_counts n ->
  Forall (fun l => (N.of_nat (length l) < 65536)%N) (entry_header e ++ [raw_line (r, Plain l q, n); stat_line (r, Plain l q, n)]) ->
  exists c, run_meta zt pd (unlines (entry_header e ++ [raw_line (r, Plain l q, n); stat_line (r, Plain l q, n)])) = ([c], Ret tt) /\
    mc_files c !! q = Some (plain_file q st).
Proof.
  intros He Hb Hr1 Hr2 Hr3 Hr4 Hl Hst Hq Ha Hn Hlen.
  assert (Hw : wf_raw (r, Plain l q, n)).
  { split; [done|]. split; [done|]. split; [done|]. split; [done|]. split; [done|by apply regular_field]. }
  assert (Hg : Forall good_line (entry_header e ++ [raw_line (r, Plain l q, n); stat_line (r, Plain l q, n)])).
  { apply Forall_app. split.
    - pose proof (good_meta e He) as H. unfold meta_lines in H. by apply Forall_app in H as [? _].
    - apply Forall_cons_2; [|apply Forall_cons_2; [|apply Forall_nil_2]].
      + unfold raw_line. apply good_app.
        * unfold raw_head. good; apply good_field; try done. by apply regular_field.
        * apply (good_app [l]); [|apply (good_app [TAB]); [by apply good_const|by apply good_path]].
          repeat (apply elem_of_cons in Hl as [->|Hl]; [by apply good_const|]). by apply elem_of_nil in Hl.
      + unfold stat_line. good. by apply good_path. }
  unfold run_meta. rewrite scan_meta by done.
  rewrite (plines_app _ _ _ _ (header_ok e (MParser [] None 0 SHeader) He)).
  set (c0 := MCommit _ _ _ _ _ _ _ _ _ _). simpl app. change (MParser [] (Some c0) 1 SFiles) with (at_files [] c0 1%Z SFiles ∅).
  set (m1 := fold_left ins (raw_entries (r, Plain l q, n)) ∅).
  set (m2 := <[get_filename q := with_counts n (default (plain_file (get_filename q) Modified) (m1 !! get_filename q))]> m1).
  assert (Hf : ofold pline (at_files [] c0 1%Z SFiles ∅) [raw_line (r, Plain l q, n); stat_line (r, Plain l q, n)] = Ret (at_files [] c0 1%Z SNumStats m2)).
  { cbn [ofold]. rewrite raw_step by done. cbn [obind]. fold m1. unfold stat_line. rewrite (stat_step _ _ _ (get_filename q)); [done|by left|done|apply Hq|done]. }
  rewrite <- (app_nil_r [raw_line _; _]). rewrite (plines_app _ _ _ _ Hf). simpl.
  replace (beq (me_sha e) []) with false by (symmetry; apply bool_decide_eq_false_2; apply He).
  eexists. split; [reflexivity|]. simpl. unfold m2.
  pose proof (get_filename_arrow q Ha) as Hlt. rewrite lookup_insert_ne by (intros E; rewrite E in Hlt; lia).
  unfold m1, raw_entries. rewrite decide_True by exact Hr4. simpl. rewrite lookup_insert. by rewrite Hst.
Qed.

(** A date that cannot be parsed. *)
Lemma bad_date e p :
  wf_header e -> pd (me_date e) = None ->
  exists q m, ofold pline p (take 6 (entry_header e)) = Ret q /\ mp_sent q = mp_sent p ++ pending (mp_commit p) /\
    pline q (B "!Date: " ++ me_date e) = Err m.
Proof.
  intros (Hsha&Hpar&H1&H2&H3&H4&Hd&Hsp&Hs) Htm. unfold entry_header. cbn [ofold take].
  rewrite to_header; [|by eexists|].
  2:{ apply not_elem_of_app. split; [by apply not_in_const|]. apply Hsha. }
  unfold parse_header at 1. rewrite has_prefix_app. cbn [obind].
  cbn [mp_sent mp_commit mp_ordinal mp_state set_state].
  rewrite in_header by done. rewrite hdr_parents.
  set (c0 := MCommit _ _ _ _ _ _ _ _ _ _). set (s0 := mp_sent p ++ pending (mp_commit p)).
  assert (exists c, (do p0 <- (if beq (join [SP] (me_parents e)) [] then Ret (MParser s0 (Some c0) (mp_ordinal p + 1)%Z SHeader)
     else upd_commit (set_parents (split_char SP (join [SP] (me_parents e)))) (MParser s0 (Some c0) (mp_ordinal p + 1)%Z SHeader)); Ret p0) =
     Ret (MParser s0 (Some c) (mp_ordinal p + 1)%Z SHeader)) as [c ->].
  { destruct (beq _ _); eexists; reflexivity. }
  cbn [mp_sent mp_commit mp_ordinal mp_state obind].
  rewrite in_header by done. rewrite hdr_committer. cbn [upd_commit mp_sent mp_commit mp_ordinal mp_state obind].
  rewrite in_header by done. rewrite hdr_cname. cbn [upd_commit mp_sent mp_commit mp_ordinal mp_state obind].
  rewrite in_header by done. rewrite hdr_author. cbn [upd_commit mp_sent mp_commit mp_ordinal mp_state obind].
  rewrite in_header by done. rewrite hdr_aname. cbn [upd_commit mp_sent mp_commit mp_ordinal mp_state obind].
  eexists _, _. split; [reflexivity|]. split; [done|].
  rewrite in_header by done.
  match goal with |- parse_header zt pd _ ?p = _ => change (parse_header zt pd (B "!Date: " ++ me_date e) p) with
    (match pd (trim_space (me_date e)) with Some t => upd_commit (set_date t) p | None => match mp_commit p with Some c => Err (B "error parsing commit " ++ mc_sha c) | None => nil_deref end end) end.
  rewrite trim_bare by done. rewrite Htm. cbn. reflexivity.
Qed.

(** Processing a well-formed log, whatever follows it. *)
Lemma lines_then es p n rest :
  Forall (wf_meta pd) es -> mp_ordinal p = Z.of_nat n ->
  exists q, mp_sent q ++ pending (mp_commit q) = mp_sent p ++ pending (mp_commit p) ++ imap (fun i e => meta_commit (n + S i) e) es /\
    plines p (concat (map meta_lines es) ++ rest) = plines q rest.
Proof.
  intros H. revert p n. induction H as [|e es He _ IH]; intros p n Hn.
  - exists p. simpl. by rewrite app_nil_r.
  - cbn [map concat]. destruct (entry_ok e p He) as [st Hst]. rewrite <- app_assoc. rewrite (plines_app _ _ _ _ Hst).
    destruct (IH (MParser (mp_sent p ++ pending (mp_commit p))
    (Some (MCommit (me_sha e) (me_author_name e) (me_author_email e) (me_committer_name e) (me_committer_email e) (me_time e)
             (mp_ordinal p + 1)%Z (me_subject e) (me_parents e) (list_to_map (body_files (me_body e)))))
    (mp_ordinal p + 1)%Z st) (S n)) as (q & Hq & Hq2); [simpl; lia|].
    exists q. split; [|exact Hq2]. rewrite Hq. cbn [mp_sent mp_commit pending mc_sha].
    replace (beq (me_sha e) []) with false.
    2:{ symmetry. apply bool_decide_eq_false_2. apply He. }
    rewrite <- !app_assoc. f_equal. f_equal. simpl. f_equal.
    + unfold meta_commit. rewrite Hn. f_equal. lia.
    + apply imap_ext. intros i x Hi. simpl. f_equal. lia.
Qed.

Lemma run_meta_bad_date es e ls rest :
  Forall (wf_meta pd) es -> meta_log es ls ->
  wf_header e -> pd (me_date e) = None -> Forall good_line rest ->
  Forall (fun l => (N.of_nat (length l) < 65536)%N) (ls ++ entry_header e ++ rest) ->
  exists m, run_meta zt pd (unlines (ls ++ entry_header e ++ rest)) = (imap (fun i e => meta_commit (S i) e) es, Err m).
Proof.
  intros He Hl Hh Hpd Hrest Hlen. unfold run_meta. rewrite scan_meta; [|..|done].
  - rewrite plines_blank, filter_app. unfold meta_log in Hl.
    assert (filter (fun l : bytes => l <> []) ls = concat (map meta_lines es)) as -> by exact Hl.
    destruct (lines_then es (MParser [] None 0 SHeader) 0 (filter (fun l : bytes => l <> []) (entry_header e ++ rest)) He) as (q & Hq & ->); [done|].
    rewrite <- plines_blank. rewrite <- (take_drop 6 (entry_header e)), <- app_assoc.
    destruct (bad_date e q Hh Hpd) as (q' & m & H1 & H2 & H3).
    rewrite (plines_app _ _ _ _ H1). unfold entry_header. cbn [drop app parse_meta_lines].
    exists m. cbn [app B list_ascii_of_string] in *. rewrite H3, H2, Hq. done.
  - assert (Hg : Forall good_line (concat (map meta_lines es))).
    { clear -He. induction He as [|e es H _ IH]; [constructor|]. cbn [map concat]. apply Forall_app. split; [by apply good_meta|done]. }
    apply Forall_app. split; [|apply Forall_app; split; [by apply good_header|done]].
    unfold meta_log in Hl. rewrite <- Hl in Hg. rewrite Forall_forall in Hg |- *. intros x Hx.
    destruct (decide (x = [])) as [->|Hne]; [by apply good_const|]. apply Hg. by apply elem_of_list_filter.
Qed.

(** A line that is too long ends the parsing silently. *)
Lemma run_meta_long ls l rest :
  Forall no_nl ls -> no_nl l -> Forall no_nl rest -> Forall (fun l => (N.of_nat (length l) < 65536)%N) ls -> (65536 <= N.of_nat (length l))%N ->
  run_meta zt pd (unlines (ls ++ l :: rest)) = run_meta zt pd (unlines ls).
Proof.
  intros H1 H2 H3 H4 H5. unfold run_meta. f_equal. unfold scan. rewrite (raw_lines_unlines ls) by done. rewrite raw_lines_unlines by (apply Forall_app; split; [done|by constructor]).
  clear H1 H2 H3. induction H4 as [|x ls Hx _ IH]; simpl.
  - assert ((default_max <=? N.of_nat (length l))%N = true) as -> by (apply N.leb_le; exact H5). done.
  - assert ((default_max <=? N.of_nat (length x))%N = false) as -> by (apply N.leb_gt; exact Hx).
    assert (Hs : forall q : list bytes * bool, (let '(ts, e) := q in (drop_cr x :: ts, e)).1 = drop_cr x :: q.1) by by intros [].
    etrans; [apply Hs|]. etrans; [|symmetry; apply Hs]. f_equal. exact IH.
Qed.

End Parse.
