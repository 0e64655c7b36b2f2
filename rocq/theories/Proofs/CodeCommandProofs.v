(** * The command code: proofs for C90 *)
From Verif.Model Require Import Base GoStrings IncBlame LogParser ParentsGraph Process Msgp Checkpoint CheckpointFS CommitMeta FileInfo CodeInfo Net Pipeline GitBlame GitRepos LogArgs Api Callers ApiByCommit Commands CodeCommand.
From Verif.Spec Require Import Text UnifiedDiff Attribution GitLog CommitGraph History Processing Records MetaLog EndToEnd Delivery Selection Porcelain GitAnswers Continuing Callers ByCommit Discovery CommandLine CodePrinting.
From Verif.Proofs Require Import NetProofs CallersProofs ApiProofs ByCommitProofs.
From Coq Require Import Lia.

Lemma choose_on {A B} `{EqDecision A} (P : A -> B -> Prop) (d : B) (l : list A) : (forall a, a ∈ l -> exists b, P a b) -> exists f, forall a, a ∈ l -> P a (f a).
Proof.
  induction l as [|a l IH]; intros Hl; [exists (fun _ => d); intros a Ha; by apply elem_of_nil in Ha|].
  destruct IH as [f Hf]; [intros b Hb; apply Hl; by right|]. destruct (Hl a) as [b Hb]; [by left|].
  exists (fun x => if decide (x = a) then b else f x). intros x Hx. destruct (decide (x = a)) as [->|Hn]; [done|]. apply Hf. by apply elem_of_cons in Hx as [?|?].
Qed.

Section Lines.
Context {T L : Type} (dir : bytes).
Definition printable (c : mcommit T) (r : bresult T L) : Prop := br_commit r = c /\ exists f, mc_files c !! br_filename r = Some f /\ cf_status f = br_status r.
Lemma record_line_ok (c : mcommit T) (r : bresult T L) : 8 <= length (mc_sha c) -> printable c r -> exists l, record_line dir r = Ret l /\ shows_record dir r l.
Proof.
  intros Hc (<- & f & Hf & Hs). unfold record_line. destruct (Nat.ltb_spec (length (mc_sha (br_commit r))) 8) as [?|_]; [lia|].
  unfold printed_status. rewrite Hf. cbn [obind]. eexists. split; [reflexivity|]. unfold shows_record, author.
  cbn [ln_repo ln_sha ln_file ln_language ln_license ln_numbers ln_skipped ln_status ln_author].
  split; [done|]. split; [exists (drop 8 (mc_sha (br_commit r))); by rewrite take_drop|]. split; [rewrite take_length; lia|]. do 4 (split; [done|]). split; [exact Hs|].
  split; [intros Hn; by rewrite decide_True|]. split; [intros Hn; rewrite decide_False by (intros ?; done); done|].
  eexists. reflexivity.
Qed.
Lemma record_lines_ok (c : mcommit T) (rs : list (bresult T L)) : 8 <= length (mc_sha c) -> (forall r, r ∈ rs -> printable c r) ->
  exists ls, record_lines dir rs = (map IRecord ls, true) /\ Forall2 (shows_record dir) rs ls.
Proof.
  intros Hc. induction rs as [|r rs IH]; intros Hr; [exists []; split; [done|constructor]|].
  destruct (record_line_ok c r Hc (Hr r ltac:(by left))) as (l & El & Hl). destruct IH as (ls & Els & Hls); [intros x Hx; apply Hr; by right|].
  exists (l :: ls). cbn [record_lines map]. rewrite El, Els. split; [done|]. by constructor.
Qed.
Definition good (y : mcommit T * list (bresult T L)) : Prop := 8 <= length (mc_sha y.1) /\ forall r, r ∈ y.2 -> printable y.1 r.
Lemma commit_lines_ok (ys : list (mcommit T * list (bresult T L))) : Forall good ys ->
  exists pieces, commit_lines dir ys = (concat pieces, true) /\ Forall2 (shows_commit dir) ys pieces.
Proof.
  induction 1 as [|[c rs] ys [Hc Hr] _ IH]; [exists []; split; [done|constructor]|].
  destruct IH as (ps & Eps & Hps). destruct (record_lines_ok c rs Hc Hr) as (ls & Els & Hls).
  exists ((ICommit (mc_sha c) (mc_date c) :: map IRecord ls) :: ps). cbn [commit_lines concat]. rewrite Els, Eps. split; [done|]. constructor; [|done]. exists ls. split; [done|exact Hls].
Qed.
Lemma good_part g ys : part_of g ys -> Forall good ys -> Forall good g.
Proof.
  intros [->|(pre & c & rs & rs' & post & -> & Hp & ->)] Hall; [constructor|]. apply Forall_app in Hall as [H1 H2]. apply Forall_app. split; [exact H1|].
  apply Forall_cons in H2 as [[H2 H3] _]. constructor; [|constructor]. split; [exact H2|]. intros r Hr. apply H3. cbn [snd] in *. destruct Hp as [q ->]. apply elem_of_app. by left.
Qed.
End Lines.

Section Place.
Context {T L : Type} (zt : T) (parse_date : bytes -> option T) (cl : classifiers L).
Context (count : bytes -> bytes -> bytes -> list (Z * line_type) * totals).
Context (orders : nat -> list (bytes * blame) -> list (bytes * blame)) (graph_order : graph -> list (bytes * list bytes)) (merge_orders : bytes -> Process.orders).
Context (skip : bytes -> pres unit) (sha : bytes) (x : place).
Notation act := (place_act zt cl count orders merge_orders skip sha).
Notation may := (may_end zt parse_date cl count orders graph_order merge_orders skip sha x).

(** If everything is delivered and can be printed, there is exactly one end. *)
Lemma one_end s ys w : code_setup zt parse_date graph_order (pl_git x) (pl_tmp x) (pl_dir x) (code_command_opts sha) = Ret s ->
  Forall good ys -> delivers_commits (act s x) (api_by_commit_call s None) (pl_write_err x) ys w ->
  let err := match w with Some _ => pl_write_err x | None => None end in
  exists its, shows_repo (pl_dir x) ys err its /\ forall e, may e <-> e = Done its (length (concat (map snd ys))) err.
Proof.
  intros Es Hg (_ & (cf & Hcf & Hfin) & Hall). destruct (commit_lines_ok (pl_dir x) ys Hg) as (ps & Eps & Hps).
  intros err. exists (concat ps ++ (if err then [] else [IProcessed (length (concat (map snd ys)))])). split; [by exists ps|].
  assert (Hfi : finish (concat ps) (length (concat (map snd ys))) (with_write (pl_write_err x) (Ret tt) w) = Done (concat ps ++ (if err then [] else [IProcessed (length (concat (map snd ys)))])) (length (concat (map snd ys))) err).
  { unfold err, with_write. destruct w as [w|]; [|reflexivity]. destruct (pl_write_err x); [|reflexivity]. cbn [finish]. by rewrite app_nil_r. }
  assert (Hret : forall (c : config chan (@clocal T L)) oc w', call_returned c = Some (oc, w') -> locals c !! 0 = Some (BL (LM (MStop oc w')))).
  { intros c oc w'. unfold call_returned. repeat match goal with |- context[match ?y with _ => _ end] => destruct y end; try discriminate. by intros [= -> ->]. }
  intros e. unfold may_end. rewrite Es. split.
  - intros (c & Hc & He). cbv zeta in He. destruct (Hall c Hc) as (Hnc & Hp & Hf).
    change (in_hand (locals c !! 3)) with (commits_received c) in He.
    destruct (commit_lines_ok (pl_dir x) (commits_received c) (good_part _ _ Hp Hg)) as (ps' & Eps' & _). rewrite Eps' in He.
    destruct He as [[? _]|(Hfc & oc & w' & Hl & ->)]; [by destruct Hnc|]. destruct (Hf Hfc) as (_ & Hr & _ & Hrw). rewrite Hr in *. rewrite Eps in Eps'. injection Eps' as <-.
    unfold call_returned in Hrw. rewrite Hl in Hrw. injection Hrw as -> ->. exact Hfi.
  - intros ->. exists cf. split; [exact Hcf|]. cbv zeta. change (in_hand (locals cf !! 3)) with (commits_received cf). destruct (Hall cf Hcf) as (_ & _ & Hf). destruct (Hf Hfin) as (_ & Hr & _ & Hrw).
    rewrite Hr, Eps. right. split; [exact Hfin|]. eexists _, _. split; [by apply Hret|]. by rewrite Hfi.
Qed.
(** If the program ends before the goroutines start, nothing is printed for the repository. *)
Lemma crash_end m : code_setup zt parse_date graph_order (pl_git x) (pl_tmp x) (pl_dir x) (code_command_opts sha) = Panic m -> forall e, may e <-> e = Crashed [].
Proof. intros Es e. unfold may_end. by rewrite Es. Qed.
End Place.

Lemma selected_known {T} k (parse_date : bytes -> option T) R H about (all : bool) c : usable k parse_date R H about -> selected R all c -> is_Some (g_parents R !! c).
Proof. intros HU Hc. pose proof (selected_in parse_date (ROpts [] false false all) k R H about HU c Hc) as Hi. by rewrite (us_same _ _ _ _ _ HU) in Hi. Qed.
Lemma right_once {T L} (zt : T) (parse_date : bytes -> option T) (cl : classifiers L) count orders graph_order merge_orders skip (x : place) k R H about :
  usable k parse_date R H about -> (forall c, is_Some (g_parents R !! c) -> 8 <= length c) -> forall sha s cs ys w line_ok,
  code_setup zt parse_date graph_order (pl_git x) (pl_tmp x) (pl_dir x) (code_command_opts sha) = Ret s -> (forall c, c ∈ cs -> is_Some (g_parents R !! c)) ->
  Forall2 (commit_delivered H (fallback (pl_git x)) line_ok about) cs ys -> delivers_commits (place_act zt cl count orders merge_orders skip sha s x) (api_by_commit_call s None) (pl_write_err x) ys w ->
  exists it err, repo_right zt parse_date cl count orders graph_order merge_orders skip x H about sha cs line_ok ys it err.
Proof.
  intros HU Hids sha s cs ys w line_ok Es Hknown HF Hdel.
  assert (Hg : Forall good ys).
  { apply Forall_forall. intros y Hy. apply elem_of_list_lookup in Hy as [i Hi]. destruct (Forall2_lookup_r _ _ _ _ _ HF Hi) as (c & Hc & (n & Hn) & _ & Hr).
    split; [|exact Hr]. rewrite Hn. cbn [meta_commit mc_sha]. assert (Hk : is_Some (g_parents R !! c)) by (apply Hknown; by eapply elem_of_list_lookup_2).
    assert (Hk' : is_Some (hi_parents H !! c)) by (by rewrite (us_same _ _ _ _ _ HU)). destruct (us_about _ _ _ _ _ HU c Hk') as (-> & _). by apply Hids. }
  destruct (one_end zt parse_date cl count orders graph_order merge_orders skip sha x s ys w Es Hg Hdel) as (it & Hit & Hends).
  eexists it, _. split; [exact HF|]. split; [exact Hit|]. split; [|exact Hends]. exists s, w. split; [exact Es|]. split; [exact Hdel|reflexivity].
Qed.

Section Repos.
Context {A : Type} (head : path -> bytes).
Lemma on_repos_done (ends : path -> repo_end A) its ps : (forall p, p ∈ ps -> has_head_commit head p = true -> exists n e, ends p = Done (its p) n e) ->
  on_repos head ends ps = (concat (map its (filter (fun p => has_head_commit head p = true) ps)), true).
Proof.
  induction ps as [|p ps IH]; intros Hp; [done|]. cbn [on_repos]. rewrite filter_cons. destruct (has_head_commit head p) eqn:E.
  - rewrite decide_True by done. destruct (Hp p) as (n & e & ->); [by left|done|]. rewrite IH by (intros q Hq; apply Hp; by right). done.
  - rewrite decide_False by done. apply IH. intros q Hq. apply Hp. by right.
Qed.
Lemma on_repos_ends (ends : path -> repo_end A) pre p post : has_head_commit head p = true -> ends p = Crashed [] ->
  (on_repos head ends (pre ++ p :: post)).2 = false /\
  forall x, x ∈ (on_repos head ends (pre ++ p :: post)).1 -> exists q, q ∈ pre /\ has_head_commit head q = true /\ x ∈ printed_of (ends q).
Proof.
  intros Hh He. induction pre as [|q pre [IH1 IH2]].
  - cbn [app on_repos]. rewrite Hh, He. split; [done|]. intros x Hx. by apply elem_of_nil in Hx.
  - cbn [app on_repos]. destruct (has_head_commit head q) eqn:E.
    + destruct (ends q) as [it n e|it] eqn:Eq.
      * destruct (on_repos head ends (pre ++ p :: post)) as [its ok]. cbn [fst snd] in *. split; [done|]. intros x [Hx|Hx]%elem_of_app.
        -- exists q. split; [by left|]. split; [done|]. by rewrite Eq.
        -- destruct (IH2 x Hx) as (q' & H1 & H2). exists q'. split; [by right|done].
      * split; [done|]. intros x Hx. exists q. split; [by left|]. split; [done|]. by rewrite Eq.
    + split; [done|]. intros x Hx. destruct (IH2 x Hx) as (q' & H1 & H2). exists q'. split; [by right|done].
Qed.
End Repos.

(** ** The whole command *)
From Verif.Proofs Require Import TextLemmas SelectionProofs TrimProofs BranchMetaProofs GitReposProofs CommandProofs.
From Verif.Props Require Import GitReposProps CommandProps.

Lemma with_commits_has head p : with_commits (head p) -> has_head_commit head p = true.
Proof.
  intros (id & [Hid1 Hid2] & Hlen & E). unfold has_head_commit. rewrite E, trim_bare_nl by (apply bare_id; by split). by rewrite Hlen.
Qed.
Lemma without_commits_has head p : without_commits (head p) -> has_head_commit head p = false.
Proof. intros E. unfold has_head_commit. rewrite E. reflexivity. Qed.

Section Whole.
Context {A : Type} (t : node) (root : bytes) (head : path -> bytes) (has : path -> bool).
Context (Hd : is_dir t) (Ha : accessible t) (Hl : listed_in_order t).
Context (Hh : forall p, repo_within t root 1 p -> has_head_commit head p = has p).
(** [good p it n]: the work on [p] ends with the lines [it], and [n] records. *)
Context (its : path -> list A) (n : path -> nat) (err : path -> option bytes).

Lemma command_ends_at repos : iter_dir always_ok t [] root 1 [] = (repos, None) -> (forall p, p ∈ repos <-> repo_within t root 1 p) ->
  (forall ends, (forall p, p ∈ repos -> has p = true -> ends p = Done (its p) (n p) (err p)) ->
    prints t root head ends =
      (concat (map its (filter (fun p => has p = true) repos)),
       Some (ending (length repos) (length (filter (fun p => has p = false) repos)) (sum_list (map n (filter (fun p => has p = true) repos)))
               (errors_of err (filter (fun p => has p = true) repos))))) /\
  (forall (ends : path -> repo_end A) pre p post, repos = pre ++ p :: post -> has p = true -> ends p = Crashed [] ->
    (prints t root head ends).2 = None /\ forall x, x ∈ (prints t root head ends).1 -> exists q, q ∈ pre /\ has q = true /\ x ∈ printed_of (ends q)).
Proof.
  intros E H1.
  assert (Hw : forall p, p ∈ repos -> has_head_commit head p = has p) by (intros p Hp; by apply Hh, H1).
  assert (Hf : forall b, filter (fun p => has_head_commit head p = b) repos = filter (fun p => has p = b) repos).
  { clear -Hw. intros b. induction repos as [|p ps IH]; [done|]. rewrite !filter_cons. rewrite IH by (intros q Hq; apply Hw; by right). rewrite (Hw p) by left. done. }
  split.
  2:{ intros ends pre p post Esp Hp Hcr. subst repos. unfold prints, run_on_dirs. change (fun _ _ => None) with always_ok. rewrite E, fold_on_dir. cbn [fst s_done app].
    assert (Hp' : has_head_commit head p = true) by (rewrite Hw by (apply elem_of_app; right; left); exact Hp).
    destruct (on_repos_ends head ends pre p post Hp' Hcr) as [X1 X2]. destruct (on_repos head ends (pre ++ p :: post)) as [its' ok]. cbn [fst snd] in *. subst ok.
    split; [done|]. intros x Hx. destruct (X2 x Hx) as (q & Q1 & Q2 & Q3). exists q. split; [exact Q1|]. split; [|exact Q3]. rewrite <- (Hw q); [exact Q2|]. apply elem_of_app. by left. }
  intros ends He. unfold prints, command, run_on_dirs. change (fun _ _ => None) with always_ok. rewrite E, fold_on_dir. cbn [fst s_done s_repos s_skipped s_entries s_errors app].
  rewrite (on_repos_done head ends its repos).
  2:{ intros p Hp Hhas. eexists _, _. apply He; [exact Hp|]. by rewrite <- (Hw p Hp). }
  rewrite !Hf.
  assert (Hc : forall p, p ∈ filter (fun p => has p = true) repos -> counted ends p = (n p, err p)).
  { intros p Hp. apply elem_of_list_filter in Hp as [Hp1 Hp2]. unfold counted. by rewrite (He p Hp2 Hp1). }
  assert (E1 : concat (map (failed_in (counted ends)) (filter (fun p => has p = true) repos)) = errors_of err (filter (fun p => has p = true) repos)).
  { unfold errors_of. f_equal. apply map_ext_in. intros p Hp%elem_of_list_In. unfold failed_in. by rewrite (Hc p Hp). }
  assert (E2 : map (fun p => (counted ends p).1) (filter (fun p => has p = true) repos) = map n (filter (fun p => has p = true) repos)).
  { apply map_ext_in. intros p Hp%elem_of_list_In. by rewrite (Hc p Hp). }
  rewrite E1, E2. cbn [Nat.add]. f_equal. f_equal. unfold ending.
  assert (E4 : forall (k : nat) (B : Type) (x y : B), (if decide (k = 0) then x else y) = (if k =? 0 then x else y)).
  { intros [|k] B x y; cbn [Nat.eqb]; [by rewrite decide_True|]. by rewrite decide_False. }
  rewrite !E4. unfold exit_with_err. destruct (errors_of _ _) as [|e1 [|e2 es]]; cbn [app exit_with_errs map]; reflexivity.
Qed.
Lemma command_ends : exists repos, (forall p, p ∈ repos <-> repo_within t root 1 p) /\ NoDup repos /\ in_order repos /\
  (forall ends, (forall p, p ∈ repos -> has p = true -> ends p = Done (its p) (n p) (err p)) ->
    prints t root head ends =
      (concat (map its (filter (fun p => has p = true) repos)),
       Some (ending (length repos) (length (filter (fun p => has p = false) repos)) (sum_list (map n (filter (fun p => has p = true) repos)))
               (errors_of err (filter (fun p => has p = true) repos))))) /\
  (forall (ends : path -> repo_end A) pre p post, repos = pre ++ p :: post -> has p = true -> ends p = Crashed [] ->
    (prints t root head ends).2 = None /\ forall x, x ∈ (prints t root head ends).1 -> exists q, q ∈ pre /\ has q = true /\ x ∈ printed_of (ends q)).
Proof.
  destruct (C56_found_partial t root 1 Hd Ha Hl) as (repos & E & H1 & H2 & H3). exists repos. split; [exact H1|]. split; [exact H2|]. split; [exact H3|]. by apply command_ends_at.
Qed.
End Whole.
