(** * C24, C61: the list of branches, the default branch and its first commit *)
From Verif.Model Require Import Base GoStrings GoSort ParentsGraph Branches CommitMeta BranchMeta BranchPool.
From Verif.Spec Require Import Text GitLog CommitGraph Refs.
From Verif.Proofs Require Import TextLemmas SortLemmas TrimProofs BranchMetaProofs.
From Coq Require Import Lia.

(** From what git prints for branches whose names do not run into the separator: exactly the branches other than HEAD and, unless
    asked for, the default one, each once with its commit and time, in order of their names. *)
Theorem C24_branch_list_partial {T} (pd : bytes -> option T) remote include dflt refs out :
  ref_name dflt -> bare dflt -> Forall wf_ref refs -> NoDup (map rf_name refs) -> (forall r, r ∈ refs -> exists t, pd (rf_date r) = Some t) ->
  out remote = Ret (render_refs remote refs) ->
  exists res, branch_get pd remote include (Ret (dflt ++ [NL])) out = Ret res /\
    (forall name commit t, BranchRef name commit t ∈ res <->
       exists date, Ref commit name date ∈ refs /\ pd date = Some t /\ name <> B "HEAD" /\ (include = true \/ name <> dflt)) /\
    NoDup (map bn_name res) /\
    (forall i j a b, i < j -> res !! i = Some a -> res !! j = Some b -> bytes_le (bn_name a) (bn_name b) /\ bn_name a <> bn_name b).
Proof.
  intros Hd Hb0 Hw Hn Hp Ho. assert (Hr : Forall (fun r => wf_ref r /\ exists t, pd (rf_date r) = Some t) refs).
  { apply Forall_forall. intros r Hin. rewrite Forall_forall in Hw. split; [by apply Hw|by apply Hp]. }
  destruct (get_ok pd remote include dflt refs out Hd Hb0 Hr Hn Ho) as (res & E & H1 & H2 & H3). exists res. split; [exact E|]. split; [|split; [exact H2|]].
  - intros name commit t. rewrite H1. split.
    + intros (r & t' & Hin & Ht & He). unfold entry in He. destruct (decide _) as [|Hno]; [done|]. injection He as <- <- <-. exists (rf_date r).
      split; [by destruct r|]. split; [done|]. split; [intros Hx; apply Hno; by left|]. destruct include; [by left|right]. intros Hx. apply Hno. by right.
    + intros (date & Hin & Ht & Hh & Hi). exists (Ref commit name date), t. split; [done|]. split; [done|]. unfold entry. cbn.
      rewrite decide_False; [done|]. intros [?|[-> ?]]; [done|]. destruct Hi; done.
  - intros i j a b Hij Ha Hb. split.
    + clear -H3 Hij Ha Hb. revert i j Hij Ha Hb. induction H3 as [|x l Hs IH Hx]; intros i j Hij Ha Hb; [done|]. destruct j as [|j]; [lia|]. destruct i as [|i].
      * injection Ha as ->. rewrite Forall_forall in Hx. apply (Hx b). by eapply elem_of_list_lookup_2.
      * apply (IH i j); [lia|done|done].
    + intros Heq. assert (i = j); [|lia]. eapply NoDup_lookup; [exact H2| |]; change (map bn_name res) with (bn_name <$> res); rewrite list_lookup_fmap; [by rewrite Ha|rewrite Hb; cbn; by rewrite Heq].
Qed.
Print Assumptions C24_branch_list_partial.
Lemma bare_git_date : bare (B "Tue Nov 27 21:55:36 2018 +0100").
Proof. apply bare_ends; [intros c r [= <- _]; reflexivity|]. intros c r E. pose proof (f_equal last E) as E'. rewrite last_snoc in E'. vm_compute in E'. injection E' as <-. reflexivity. Qed.
Definition ex_refs : list ref :=
  [Ref (B "b3") (B "topic/one") (B "Tue Nov 27 21:55:36 2018 +0100"); Ref (B "a1") (B "master") (B "Tue Nov 27 21:55:36 2018 +0100"); Ref (B "c2") (B "@fix@@x") (B "Tue Nov 27 21:55:36 2018 +0100")].
Example C24_hypotheses_hold : ref_name (B "master") /\ bare (B "master") /\ Forall wf_ref ex_refs /\ NoDup (map rf_name ex_refs) /\
  branch_get (fun d => Some d) true false (Ret (B "master" ++ [NL])) (fun r => Ret (render_refs r ex_refs)) =
  Ret [BranchRef (B "@fix@@x") (B "c2") (B "Tue Nov 27 21:55:36 2018 +0100"); BranchRef (B "topic/one") (B "b3") (B "Tue Nov 27 21:55:36 2018 +0100")].
Proof.
  split; [done|]. split; [apply bare_solid; repeat (apply Forall_cons; split; [reflexivity|]); by apply Forall_nil|]. split; [|split].
  - assert (Hdt : date_text (B "Tue Nov 27 21:55:36 2018 +0100")).
    { split; [apply (bool_decide_unpack _); vm_compute; exact I|]. split; [discriminate|]. apply bare_git_date. }
    assert (Hns : forall n, last n <> Some "@"%char -> contains (B "@@@") n = false -> no_separator n).
    { intros n H1 H2. split; [intros x y ->|intros x ->].
      - unfold contains in H2. destruct (cut_some (B "@@@") x y) as (x1 & y1 & E & _). by rewrite E in H2.
      - change (B "@") with ["@"%char] in H1. by rewrite last_snoc in H1. }
    unfold ex_refs. do 3 (constructor; [split; [done|]; split; [done|]; split; [apply Hns; vm_compute; done|exact Hdt]|]). constructor.
  - apply (bool_decide_unpack _). vm_compute. exact I.
  - vm_compute. reflexivity.
Qed.

(** Not for names that do: git allows them, and the call panics (dates never contain "@"). *)
Theorem C24_separator_in_name_refuted {T} (pd : bytes -> option T) remote include dflt r out :
  (forall d, "@"%char ∈ d -> pd d = None) -> ref_name dflt -> bare dflt -> commit_id (rf_commit r) -> ref_name (rf_name r) -> date_text (rf_date r) ->
  (exists x y, rf_name r = x ++ B "@@@" ++ y) \/ (exists x, rf_name r = x ++ B "@") ->
  out remote = Ret (render_refs remote [r]) ->
  branch_get pd remote include (Ret (dflt ++ [NL])) out = Panic (B "invalid date format").
Proof.
  intros Hp Hd Hb0 Hc Hn Hdt Hbad Ho. eapply (bad_line pd remote include dflt [] [] (ref_line remote r)); [exact Ho|exact Hd|exact Hb0| |by intros s Hs; apply elem_of_nil in Hs|by apply bad_name].
  constructor; [|constructor]. unfold ref_line. rewrite !not_elem_of_app. split; [|split; [|split; [|split]]].
  - apply no_nl_graphic. eapply forallb_forall. intros x Hx. apply hex_graphic. destruct Hc as [_ Hc]. rewrite forallb_forall in Hc. by apply Hc.
  - by apply no_nl_graphic.
  - destruct remote; [apply not_elem_of_app; split; [by apply no_nl_graphic|]|]; apply no_nl_graphic; apply Hn.
  - by apply no_nl_graphic.
  - apply Hdt.
Qed.
Print Assumptions C24_separator_in_name_refuted.

(** Git allows names of branches that end in white space outside ASCII, such as a no-break space.  If the default branch has one, its name is
    reported without the white space (so no branch has it) and it is listed among the other branches. *)
Theorem C24_blank_at_end_refuted {T} (pd : bytes -> option T) remote r t n w :
  w ∈ white -> n <> [] -> bare n -> n <> B "HEAD" -> rf_name r = n ++ w -> wf_ref r -> length (rf_commit r) = 40 -> pd (rf_date r) = Some t ->
  branch_get pd remote false (Ret (rf_name r ++ [NL])) (fun x => Ret (render_refs x [r])) = Ret [BranchRef (rf_name r) (rf_commit r) t] /\
  get_default (Ret (rf_name r ++ [NL])) (Ret (rf_commit r ++ [NL])) = Ret (n, rf_commit r) /\ n <> rf_name r.
Proof.
  intros Hw Hn Hb Hh Er Hr Hl Ht. assert (Et : trim_space (rf_name r ++ [NL]) = n).
  { symmetry. apply trimmed_iff. exists [], [w; [NL]]. rewrite Er. split; [cbn; by rewrite <- app_assoc|]. split; [|exact Hb].
    apply Forall_cons. split; [exact Hw|]. apply Forall_cons. split; [apply white_nl|by apply Forall_nil]. }
  assert (Hne : n <> rf_name r).
  { rewrite Er. intros E. apply (f_equal length) in E. rewrite app_length in E. pose proof (white_nonempty w Hw). destruct w; [done|cbn in E; lia]. }
  assert (Hhead : rf_name r <> B "HEAD").
  { rewrite Er. intros E. pose proof (white_nonempty w Hw) as Hwn. pose proof (white_not_solid w Hw) as Hs. destruct w as [|c w]; [done|]. apply Forall_inv in Hs.
    assert (Hc : solid c = true); [|congruence]. assert (Hall : Forall (fun c => solid c = true) (n ++ c :: w)).
    { rewrite E. repeat (apply Forall_cons; split; [reflexivity|]). by apply Forall_nil. }
    apply Forall_app in Hall as [_ Hall]. by apply Forall_inv in Hall. }
  split; [|split; [|exact Hne]].
  - unfold branch_get, default_name. cbn [obind]. rewrite Et. case_bool_decide as E1; [done|]. cbn [obind]. rewrite render_lines by (apply Forall_cons; split; [exact Hr|by apply Forall_nil]).
    unfold refs_of_lines. destruct (parse_lines pd remote false n [r] []) as (res & E & H1 & H2).
    { apply Forall_cons. split; [split; [exact Hr|by exists t]|by apply Forall_nil]. }
    cbn [map app ofold] in E |- *. rewrite (parse_line pd remote false n r t Hr Ht) in *. unfold entry in *. rewrite decide_False in *
      by (intros [?|[_ ?]]; [done|by apply Hne]). cbn [obind app option_list] in *. reflexivity.
  - unfold get_default, head_branch, head_commit. cbn [obind]. rewrite Et. case_bool_decide as E1; [done|]. cbn [obind].
    rewrite (trim_bare_nl (rf_commit r)) by (apply bare_id, Hr). case_bool_decide; done.
Qed.
Print Assumptions C24_blank_at_end_refuted.
Example C24_blank_hypotheses_hold : let w := ["194"%char; "160"%char] in
  w ∈ white /\ bare (B "main") /\ wf_ref (Ref (B "0123456789012345678901234567890123456789") (B "main" ++ w) (B "Tue Nov 27 21:55:36 2018 +0100")).
Proof.
  cbn zeta. split; [apply white_rune, rune2; reflexivity|]. split; [apply bare_solid; repeat (apply Forall_cons; split; [reflexivity|]); by apply Forall_nil|].
  split; [done|]. split; [split; [done|reflexivity]|]. split; [|split; [apply (bool_decide_unpack _); vm_compute; exact I|split; [discriminate|apply bare_git_date]]].
  split.
  - intros x y E. assert (Hin : "@"%char ∈ rf_name (Ref (B "0123456789012345678901234567890123456789") (B "main" ++ ["194"%char; "160"%char]) (B "Tue Nov 27 21:55:36 2018 +0100"))).
    { rewrite E. apply elem_of_app. right. left. }
    revert Hin. apply (bool_decide_unpack _). vm_compute. exact I.
  - intros x E. apply (f_equal last) in E. change (B "@") with ["@"%char] in E. rewrite last_snoc in E. vm_compute in E. discriminate E.
Qed.

(** Newer versions of git print the short name of refs/remotes/origin/HEAD as "origin": with remote branches the call panics for a clone. *)
Theorem C24_remote_head_refuted {T} (pd : bytes -> option T) (t : T) include dflt : ref_name dflt -> bare dflt -> (forall d, pd d = Some t) ->
  branch_get pd true include (Ret (dflt ++ [NL])) (fun _ => Ret (B "a1@@@origin@@@Tue Nov 27 21:55:36 2018 +0100" ++ [NL])) =
  Panic (B "branch name does not have origin/ prefix").
Proof.
  intros Hd Hb0 Hp. eapply (bad_line pd true include dflt [] [] (B "a1@@@origin@@@Tue Nov 27 21:55:36 2018 +0100")); [reflexivity|exact Hd|exact Hb0| |by intros s Hs; apply elem_of_nil in Hs|].
  - constructor; [|constructor]. apply (bool_decide_unpack _). vm_compute. exact I.
  - unfold ref_of_line. match goal with |- context [trim_space ?x] => let v := eval vm_compute in (trim_space x) in change (trim_space x) with v end.
    cbv iota beta zeta. match goal with |- context [bool_decide ?x] => change (bool_decide x) with false end. cbv iota.
    match goal with |- context [splitn 3 SEP ?x] => let v := eval vm_compute in (splitn 3 SEP x) in change (splitn 3 SEP x) with v end. cbv iota beta. rewrite Hp. vm_compute. reflexivity.
Qed.
Print Assumptions C24_remote_head_refuted.

(** The default branch: its name and the commit it is at; a detached HEAD is an error. *)
Theorem C24_default_branch name commit : ref_name name -> bare name -> name <> B "HEAD" -> commit_id commit -> length commit = 40 ->
  get_default (Ret (name ++ [NL])) (Ret (commit ++ [NL])) = Ret (name, commit).
Proof.
  intros Hn Hb Hh Hc Hl. unfold get_default, head_branch, head_commit. cbn [obind]. rewrite (trim_bare_nl name Hb). case_bool_decide as E1; [done|]. cbn [obind].
  rewrite (trim_bare_nl commit) by by apply bare_id. case_bool_decide; done.
Qed.
Print Assumptions C24_default_branch.
Theorem C24_detached_head commit_out : exists e, get_default (Ret (B "HEAD" ++ [NL])) commit_out = Err e.
Proof. eexists. reflexivity. Qed.
Print Assumptions C24_detached_head.

(** ** C61 *)
(** With one root, FirstCommit of the default branch is that root. *)
Theorem C61_first_commit_partial (g : graph) d roots : Forall commit_id roots -> lists_exactly roots (fun x => reaches g d x /\ parents g x = []) ->
  length roots = 1 -> exists f, first_commit (Ret (unlines roots)) = Ret f /\ commit_id f /\ reaches g d f /\ parents g f = [].
Proof.
  intros Hc [_ Hr] Hl. destruct roots as [|root [|]]; [done| |done]. exists root. apply Forall_cons in Hc as [Hc _]. split.
  - unfold first_commit, unlines. cbn [map concat obind]. rewrite app_nil_r. by rewrite trim_bare_nl by by apply bare_id.
  - split; [exact Hc|]. apply Hr. left.
Qed.
Print Assumptions C61_first_commit_partial.
Example C61_hypotheses_hold : Forall commit_id [B "a1"] /\ lists_exactly [B "a1"] (fun x => reaches (<[ B "a1" := [] ]> ∅) (B "a1") x /\ parents (<[ B "a1" := [] ]> ∅) x = []).
Proof.
  split; [repeat constructor; done|]. split; [apply NoDup_singleton|]. intros x. rewrite elem_of_list_singleton. split.
  - intros ->. split; [apply rtc_refl|reflexivity].
  - intros [Hx _]. inversion Hx as [|? y ? Hp _]; subst; [done|]. unfold parent, parents in Hp. rewrite lookup_insert in Hp. by apply elem_of_nil in Hp.
Qed.
(** With several (unrelated histories merged), it is not a commit id but all of them, one per line. *)
Theorem C61_several_roots_refuted roots : Forall commit_id roots -> 2 <= length roots ->
  exists f, first_commit (Ret (unlines roots)) = Ret f /\ f = join [NL] roots /\ ~ commit_id f.
Proof.
  intros Hc Hl. eexists. split; [reflexivity|]. assert (E : unlines roots = join [NL] roots ++ [NL]).
  { destruct roots as [|r roots]; [cbn in Hl; lia|]. clear. revert r. induction roots as [|r' roots IH]; intros r; unfold unlines in *; [cbn; by rewrite app_nil_r|].
    cbn [map concat] in *. rewrite IH. cbn [join]. by rewrite <- !app_assoc. }
  assert (Hj : trim_space (join [NL] roots ++ [NL]) = join [NL] roots).
  { apply trim_bare_nl, bare_ends; clear E Hl.
    - destruct roots as [|r roots]; [done|]. apply Forall_cons in Hc as [[H1 H2] _]. destruct r as [|a r]; [done|]. cbn in H2. apply andb_true_iff in H2 as [H2 _].
      intros c u E. destruct roots; cbn in E; injection E as <- _; by apply hex_solid.
    - destruct roots as [|r roots]; [intros c u E; by destruct u|]. revert r Hc. induction roots as [|r' roots IH]; intros r Hc c u E; apply Forall_cons in Hc as [[H1 H2] Hc].
      + cbn in E. subst r. rewrite forallb_app in H2. apply andb_true_iff in H2 as [_ H2]. cbn in H2. rewrite andb_true_r in H2. by apply hex_solid.
      + rewrite join_cons in E. apply (f_equal last) in E. rewrite last_snoc in E.
        assert (Hne : join [NL] (r' :: roots) <> []) by (apply Forall_cons in Hc as [[H3 _] _]; destruct r'; [done|]; destruct roots; done).
        destruct (exists_last Hne) as (u' & c' & E'). rewrite E', !app_assoc, last_snoc in E. injection E as ->. exact (IH r' Hc c u' E'). }
  rewrite E, Hj. split; [done|]. intros [_ Hx]. rewrite forallb_forall in Hx. destruct roots as [|r [|r' roots]]; [cbn in Hl; lia|cbn in Hl; lia|].
  assert (Hn : In NL (join [NL] (r :: r' :: roots))). { change (join [NL] (r :: r' :: roots)) with (r ++ [NL] ++ join [NL] (r' :: roots)). apply in_or_app. right. by left. }
  specialize (Hx _ Hn). vm_compute in Hx. discriminate Hx.
Qed.
Print Assumptions C61_several_roots_refuted.
