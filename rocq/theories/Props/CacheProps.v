(** * C87: commands of git with a cache *)
From Verif.Model Require Import Base GoStrings CommitMeta GitCache.
From Verif.Spec Require Import Text Caching.
From Coq Require Import Lia.

Lemma loc_inj k k' : loc_of k = loc_of k' -> k = k'.
Proof. apply app_inv_tail. Qed.
Lemma loc_not_tmp k k' : loc_of k <> tmp_of k'.
Proof. intros E. apply (f_equal last) in E. unfold loc_of, tmp_of in E. rewrite !last_app in E. cbn in E. discriminate E. Qed.
Lemma appends d t cs : (forall p, p <> t -> apply_all d (map (Append t) cs) !! p = d !! p) /\
  (is_Some (d !! t) -> apply_all d (map (Append t) cs) !! t = Some (text_at d t ++ concat cs : bytes)).
Proof.
  revert d. induction cs as [|c cs IH]; intros d; cbn [map apply_all fold_left concat].
  - split; [done|]. intros [x Hx]. rewrite app_nil_r. unfold text_at. by rewrite Hx.
  - destruct (IH (apply_op d (Append t c))) as [IH1 IH2]. split.
    + intros p Hp. unfold apply_all in IH1. rewrite IH1 by done. cbn [apply_op]. by rewrite lookup_insert_ne.
    + intros _. unfold apply_all in IH2. rewrite IH2; cbn [apply_op]; [|rewrite lookup_insert; by eexists]. unfold text_at at 1. rewrite lookup_insert. by rewrite <- app_assoc.
Qed.
(** The operations before the renaming leave the files of the cache alone; all of them put the text there. *)
Lemma ops_before d key cs n : forall k, apply_all d (take n (Create (tmp_of key) :: map (Append (tmp_of key)) cs)) !! loc_of k = d !! loc_of k.
Proof.
  intros k. destruct n as [|n]; [done|]. cbn [take]. rewrite firstn_map. cbn [apply_all fold_left]. fold (apply_all (apply_op d (Create (tmp_of key))) (map (Append (tmp_of key)) (take n cs))).
  rewrite (proj1 (appends _ _ _)) by apply loc_not_tmp. cbn [apply_op]. rewrite lookup_insert_ne; [done|]. intros E. symmetry in E. by apply loc_not_tmp in E.
Qed.
Lemma ops_all d key cs :
  let d' := apply_all d (Create (tmp_of key) :: map (Append (tmp_of key)) cs ++ [Rename (tmp_of key) (loc_of key)]) in
  d' !! loc_of key = Some (concat cs : bytes) /\ forall k, k <> key -> d' !! loc_of k = d !! loc_of k.
Proof.
  cbv zeta. unfold apply_all. cbn [fold_left]. rewrite fold_left_app. fold (apply_all (apply_op d (Create (tmp_of key))) (map (Append (tmp_of key)) cs)).
  destruct (appends (apply_op d (Create (tmp_of key))) (tmp_of key) cs) as [H1 H2]. cbn [apply_op] in *. rewrite lookup_insert in H2. specialize (H2 ltac:(by eexists)). unfold text_at in H2. rewrite lookup_insert in H2. cbn [app empty_file] in H2.
  unfold apply_all in *. cbn [fold_left apply_op]. rewrite H2. split; [by rewrite lookup_insert|]. intros k Hk.
  rewrite lookup_insert_ne by (intros E; by apply Hk, loc_inj). rewrite lookup_delete_ne by (intros E; symmetry in E; by apply loc_not_tmp in E).
  rewrite H1 by apply loc_not_tmp. rewrite lookup_insert_ne; [done|]. intros E. symmetry in E. by apply loc_not_tmp in E.
Qed.

Section Cache.
Context (hash : bytes -> bytes) (gz : bytes -> bytes) (gunzip : bytes -> option bytes) (HZ : compression gz gunzip).
Notation key_of c := (cache_key hash (cc_args c) (st_head (cc_state c))).
(** What the cache holds was printed by a command with that key. *)
Definition holds_outputs (cs : list cached_call) (d : gmap bytes bytes) : Prop :=
  forall k x, d !! loc_of k = Some x -> exists c out, c ∈ cs /\ k = key_of c /\ st_git (cc_state c) (cc_args c) = Ret out /\ x = gz out.
Lemma call_holds cs d c : holds_outputs cs d -> run_of gz (cc_state c) (cc_args c) (cc_run c) -> holds_outputs (cs ++ [c]) (after_call hash d c).
Proof.
  intros Hd Hr k x. assert (Hold : d !! loc_of k = Some x -> exists c0 out, c0 ∈ cs ++ [c] /\ k = key_of c0 /\ st_git (cc_state c0) (cc_args c0) = Ret out /\ x = gz out).
  { intros Hx. destruct (Hd k x Hx) as (c0 & out & Hc & Hrest). exists c0, out. split; [apply elem_of_app; by left|exact Hrest]. }
  unfold after_call. set (ops := cached_ops d (key_of c) (cc_run c)). set (key := key_of c) in *. set (chunks := ru_chunks (cc_run c) ++ ru_rest (cc_run c)).
  assert (Hcase : ops = [] \/ (ops = Create (tmp_of key) :: map (Append (tmp_of key)) chunks) \/
    (ru_ok (cc_run c) = true /\ ops = Create (tmp_of key) :: map (Append (tmp_of key)) chunks ++ [Rename (tmp_of key) (loc_of key)])).
  { subst ops. unfold cached_ops. destruct (d !! loc_of key); [by left|]. right. destruct (ru_ok (cc_run c)); [right; done|left; by rewrite app_nil_r]. }
  assert (Hbefore : forall n, apply_all d (take n (Create (tmp_of key) :: map (Append (tmp_of key)) chunks)) !! loc_of k = d !! loc_of k) by (intros n; apply ops_before).
  destruct Hcase as [->|[->|[Hok ->]]].
  - destruct (cc_cut c) as [n|]; [rewrite take_nil|]; exact Hold.
  - destruct (cc_cut c) as [n|]; [by rewrite Hbefore|]. rewrite <- (firstn_all (Create (tmp_of key) :: map (Append (tmp_of key)) chunks)). by rewrite Hbefore.
  - assert (Hfull : apply_all d (Create (tmp_of key) :: map (Append (tmp_of key)) chunks ++ [Rename (tmp_of key) (loc_of key)]) !! loc_of k = Some x ->
      exists c0 out, c0 ∈ cs ++ [c] /\ k = key_of c0 /\ st_git (cc_state c0) (cc_args c0) = Ret out /\ x = gz out).
    { destruct (ops_all d key chunks) as [H1 H2]. destruct (decide (k = key)) as [->|Hk]; [|by rewrite H2]. rewrite H1. intros [= <-].
      unfold run_of in Hr. destruct (st_git (cc_state c) (cc_args c)) as [out|e|e] eqn:Eg; [|congruence..]. exists c, out. split; [apply elem_of_app; right; left|]. split; [done|]. split; [done|]. apply Hr. }
    destruct (cc_cut c) as [n|]; [|exact Hfull].
    destruct (decide (n <= length (Create (tmp_of key) :: map (Append (tmp_of key)) chunks))) as [Hn|Hn].
    + rewrite app_comm_cons, take_app_le by exact Hn. by rewrite Hbefore.
    + rewrite take_ge; [exact Hfull|]. rewrite app_comm_cons, app_length. cbn [length] in *. lia.
Qed.
Lemma calls_hold cs : Forall (fun c => run_of gz (cc_state c) (cc_args c) (cc_run c)) cs -> holds_outputs cs (after_calls hash cs).
Proof.
  induction cs as [|c cs IH] using rev_ind; intros HF; [intros k x Hx; unfold after_calls in Hx; cbn in Hx; by rewrite lookup_empty in Hx|].
  apply Forall_app in HF as [HF Hc]. rewrite Forall_singleton in Hc. unfold after_calls in *. rewrite fold_left_app. cbn [fold_left]. by apply call_holds; [apply IH|].
Qed.

(** C87: after any series of calls, each possibly cut off by a crash at any point, a call returns the output of its command, or an error if the
    command fails, provided that what is asked (the arguments joined with "@", and the HEAD commit) determines what git answers, and that no
    two of them have the same hash.

    Partial: the property asks this without these provisos, which is false (below); calls at the same time are not covered, for which it is
    false too. *)
Theorem C87_output_right_partial cs s args r :
  Forall (fun c => run_of gz (cc_state c) (cc_args c) (cc_run c)) cs -> run_of gz s args r ->
  (forall c, c ∈ cs -> take 32 (hash (B "1@" ++ asked (cc_args c) (st_head (cc_state c)))) = take 32 (hash (B "1@" ++ asked args (st_head s))) -> asked (cc_args c) (st_head (cc_state c)) = asked args (st_head s)) ->
  (forall c, c ∈ cs -> asked (cc_args c) (st_head (cc_state c)) = asked args (st_head s) -> st_git (cc_state c) (cc_args c) = st_git s args) ->
  match st_git s args with
  | Ret out => cached_result gunzip (after_calls hash cs) (cache_key hash args (st_head s)) r = Ret out
  | Err _ | Panic _ => exists e, cached_result gunzip (after_calls hash cs) (cache_key hash args (st_head s)) r = Err e
  end.
Proof.
  intros HF Hr Hh Hdet. pose proof (calls_hold cs HF) as Hd. set (d := after_calls hash cs) in *. set (key := cache_key hash args (st_head s)) in *. unfold cached_result.
  destruct (d !! loc_of key) as [x|] eqn:Ex.
  - destruct (Hd key x Ex) as (c & out & Hc & Hk & Hg & ->). rewrite (Hdet c Hc (Hh c Hc (eq_sym Hk))) in Hg. rewrite Hg. unfold text_at. rewrite Ex. by rewrite (proj1 HZ).
  - unfold run_of in Hr. destruct (st_git s args) as [out|e|e]; [|rewrite Hr; by eexists..]. destruct Hr as [Hok Hc]. rewrite Hok. unfold cached_ops. rewrite Ex, Hok.
    destruct (ops_all d key (ru_chunks r ++ ru_rest r)) as [H1 _]. unfold text_at. rewrite H1. rewrite Hc. by rewrite (proj1 HZ).
Qed.

(** Which files a call changes, wherever it is cut off: the one with the name of the key and the one it is written to first.  A call that works
    leaves the compressed output in the first and removes the second. *)
Theorem C87_files_partial d args s r :
  let file := cache_key hash args (st_head s) ++ B ".txt.gz" in let written := cache_key hash args (st_head s) ++ B ".txt.gz.tmp" in
  (forall cut p, p <> file -> p <> written -> after_call hash d (CachedCall s args r cut) !! p = d !! p) /\
  (forall cut, is_Some (d !! file) -> after_call hash d (CachedCall s args r cut) = d) /\
  (forall out, d !! file = None -> run_of gz s args r -> st_git s args = Ret out ->
    after_call hash d (CachedCall s args r None) !! file = Some (gz out) /\ after_call hash d (CachedCall s args r None) !! written = None).
Proof.
  cbv zeta. fold (loc_of (cache_key hash args (st_head s))). fold (tmp_of (cache_key hash args (st_head s))). set (key := cache_key hash args (st_head s)).
  split; [|split].
  - intros cut p H1 H2. unfold after_call. cbn [cc_state cc_args cc_run cc_cut]. fold key. unfold cached_ops. cbv zeta.
    destruct (d !! loc_of key); [destruct cut; [by rewrite take_nil|done]|].
    set (ops := Create (tmp_of key) :: map (Append (tmp_of key)) (ru_chunks r ++ ru_rest r) ++ (if ru_ok r then [Rename (tmp_of key) (loc_of key)] else [])).
    assert (Hops : Forall (fun o => forall e, apply_op e o !! p = e !! p) ops).
    { subst ops. apply Forall_cons. split; [intros e; cbn [apply_op]; rewrite lookup_insert_ne; congruence|]. apply Forall_app. split.
      - apply Forall_forall. intros o Ho. apply elem_of_list_fmap in Ho as (c & -> & _). intros e. cbn [apply_op]. rewrite lookup_insert_ne; congruence.
      - destruct (ru_ok r); [|by apply Forall_nil]. apply Forall_cons. split; [|by apply Forall_nil]. intros e. cbn [apply_op]. destruct (e !! tmp_of key); [|done].
        rewrite lookup_insert_ne by congruence. rewrite lookup_delete_ne; congruence. }
    assert (Hall : forall l e, Forall (fun o => forall e, apply_op e o !! p = e !! p) l -> apply_all e l !! p = e !! p).
    { clear Hops ops. induction l as [|o l IH]; intros e Hl; [done|]. apply Forall_cons in Hl as [Ho Hl]. unfold apply_all in *. cbn [fold_left]. by rewrite IH. }
    destruct cut as [n|]; apply Hall; [by apply Forall_take|done].
  - intros cut [x Hx]. assert (Hx' : d !! loc_of key = Some x) by exact Hx. clear Hx. unfold after_call. cbn [cc_state cc_args cc_run cc_cut]. fold key. unfold cached_ops. rewrite Hx'. destruct cut; [by rewrite take_nil|done].
  - intros out Hd0 Hr Hg. assert (Hd : d !! loc_of key = None) by exact Hd0. clear Hd0. unfold run_of in Hr. rewrite Hg in Hr. destruct Hr as [Hok Hc]. unfold after_call. cbn [cc_state cc_args cc_run cc_cut]. fold key. unfold cached_ops. rewrite Hd, Hok.
    split; [rewrite (proj1 (ops_all d key _)); by rewrite Hc|].
    unfold apply_all. cbn [fold_left]. rewrite fold_left_app. fold (apply_all (apply_op d (Create (tmp_of key))) (map (Append (tmp_of key)) (ru_chunks r ++ ru_rest r))).
    destruct (appends (apply_op d (Create (tmp_of key))) (tmp_of key) (ru_chunks r ++ ru_rest r)) as [_ H2]. specialize (H2 ltac:(cbn [apply_op]; rewrite lookup_insert; by eexists)).
    cbn [fold_left]. cbn [apply_op] in *. rewrite H2. rewrite lookup_insert_ne by apply loc_not_tmp. apply lookup_delete.
Qed.

(** C87 without the provisos is false.  Whenever two questions have the same key, in particular when the arguments of the commands are the same
    once joined with "@", or when the repository changed but not its HEAD, the second call returns the output of the first. *)
Theorem C87_same_question_refuted s1 args1 r1 out1 s2 args2 r2 :
  run_of gz s1 args1 r1 -> st_git s1 args1 = Ret out1 -> asked args1 (st_head s1) = asked args2 (st_head s2) ->
  cached_result gunzip (after_calls hash [CachedCall s1 args1 r1 None]) (cache_key hash args2 (st_head s2)) r2 = Ret out1.
Proof.
  intros Hr Hg Ha. unfold run_of in Hr. rewrite Hg in Hr. destruct Hr as [Hok Hc]. assert (Ek : cache_key hash args2 (st_head s2) = cache_key hash args1 (st_head s1)).
  { unfold cache_key. unfold asked in Ha. by rewrite Ha. }
  rewrite Ek. unfold after_calls. cbn [fold_left]. unfold after_call. cbn [cc_state cc_args cc_run cc_cut]. set (key := cache_key hash args1 (st_head s1)).
  unfold cached_ops. rewrite lookup_empty, Hok. destruct (ops_all ∅ key (ru_chunks r1 ++ ru_rest r1)) as [H1 _]. unfold cached_result, text_at. rewrite H1. rewrite Hc. by rewrite (proj1 HZ).
Qed.

(** In particular in a repository with commit names of another length (SHA-256), or with no commit: the output of the first call is returned
    for ever, whatever is committed since. *)
Theorem C87_other_hash_refuted s1 args r1 out1 s2 r2 :
  length (trim_space (st_printed s1)) <> 40 -> length (trim_space (st_printed s2)) <> 40 ->
  run_of gz s1 args r1 -> st_git s1 args = Ret out1 ->
  cached_result gunzip (after_calls hash [CachedCall s1 args r1 None]) (cache_key hash args (st_head s2)) r2 = Ret out1.
Proof.
  intros H1 H2 Hr Hg. apply C87_same_question_refuted; [exact Hr|exact Hg|]. unfold asked, st_head, head_commit.
  rewrite (proj2 (Nat.eqb_neq _ _) H1), (proj2 (Nat.eqb_neq _ _) H2). done.
Qed.

(** A call during which the last part of the file cannot be written (the error of gw.Close is dropped) leaves a file no later call can read:
    whatever calls follow, they all fail. *)
Theorem C87_close_error_refuted s args r out cs s' r' :
  st_git s args = Ret out -> ru_ok r = true -> (exists q, gz out = concat (ru_chunks r ++ ru_rest r) ++ q /\ q <> []) -> st_head s' = st_head s ->
  exists e, cached_result gunzip (fold_left (after_call hash) cs (after_calls hash [CachedCall s args r None])) (cache_key hash args (st_head s')) r' = Err e.
Proof.
  intros Hg Hok (q & Hq & Hne) ->. set (key := cache_key hash args (st_head s)). set (bad := (concat (ru_chunks r ++ ru_rest r) : bytes)) in *.
  assert (Hb : after_calls hash [CachedCall s args r None] !! loc_of key = Some (bad : bytes)).
  { unfold after_calls. cbn [fold_left]. unfold after_call. cbn [cc_state cc_args cc_run cc_cut]. fold key. unfold cached_ops. rewrite lookup_empty, Hok. apply ops_all. }
  assert (Hall : forall cs (d : gmap bytes bytes), d !! loc_of key = Some (bad : bytes) -> fold_left (after_call hash) cs d !! loc_of key = Some (bad : bytes)).
  { clear cs. induction cs as [|c cs IH]; intros d Hd; [done|]. cbn [fold_left]. apply IH. unfold after_call. cbv zeta. destruct (decide (key_of c = key)) as [Hk|Hk].
    - rewrite Hk. unfold cached_ops. rewrite Hd. destruct (cc_cut c); [by rewrite take_nil|done].
    - set (k := key_of c) in *. unfold cached_ops. destruct (d !! loc_of k); [destruct (cc_cut c); [by rewrite take_nil|done]|].
      set (pre := Create (tmp_of k) :: map (Append (tmp_of k)) (ru_chunks (cc_run c) ++ ru_rest (cc_run c))).
      assert (Hpre : forall n, apply_all d (take n pre) !! loc_of key = Some (bad : bytes)) by (intros n; subst pre; by rewrite ops_before).
      assert (Hpre' : apply_all d pre !! loc_of key = Some (bad : bytes)) by (rewrite <- (firstn_all pre); apply Hpre).
      assert (Hren : apply_all d (pre ++ [Rename (tmp_of k) (loc_of k)]) !! loc_of key = Some (bad : bytes)).
      { subst pre. rewrite <- app_comm_cons. rewrite (proj2 (ops_all d k _)) by congruence. done. }
      rewrite app_comm_cons. fold pre. destruct (ru_ok (cc_run c)), (cc_cut c) as [n|]; [|exact Hren|rewrite app_nil_r; apply Hpre|rewrite app_nil_r; exact Hpre'].
      destruct (decide (n <= length pre)) as [Hn|Hn]; [rewrite take_app_le by done; apply Hpre|]. rewrite take_ge; [exact Hren|]. rewrite app_length. cbn [length]. lia. }
  unfold cached_result, text_at. rewrite (Hall cs _ Hb). rewrite (proj2 HZ out bad q Hq Hne). by eexists.
Qed.

(** Two calls of one command at a time: there is a schedule in which git works for both, the first gets a file it cannot read, and the second
    an error. *)
Theorem C87_two_calls_refuted key out d :
  gz out <> [] -> dk_names d !! loc_of key = None -> dk_names d !! tmp_of key = None ->
  exists sched d' data, two_calls key [gz out] sched d SOpen SOpen = (d', SGot data, SErr) /\ gunzip data = None.
Proof.
  intros Hz H1 H2. assert (Hg : gunzip [] = None) by exact (proj2 HZ out [] (gz out) eq_refl Hz). exists [true; true; false; true; true; false; true; true; true; false; false; false].
  cbn [two_calls one_step]. rewrite H1. cbn [one_step]. rewrite H2. cbn [one_step dk_names dk_data dk_next]. rewrite lookup_insert_ne by (intros E; symmetry in E; by apply loc_not_tmp in E). rewrite H1.
  cbn [one_step dk_names dk_data dk_next]. rewrite !lookup_insert. cbn [one_step dk_names dk_data dk_next]. rewrite !lookup_insert. cbn [one_step dk_names dk_data dk_next]. rewrite !lookup_insert.
  unfold data_of. cbn [one_step dk_names dk_data dk_next]. rewrite delete_insert by exact H2.
  cbn [one_step dk_names dk_data dk_next]. rewrite lookup_insert_ne by (apply loc_not_tmp). rewrite H2. eexists _, _. split; [reflexivity|]. unfold data_of. cbn [dk_data]. rewrite lookup_insert. exact Hg.
Qed.
(** One call after the other, on files that are open while they are written: both get the whole output, however it was cut when written and
    whatever a call that crashed has left under the name it is written to. *)
Lemma one_ended key chunks d a b n r : one_step key chunks d a = None -> two_calls key chunks (replicate n true ++ r) d a b = two_calls key chunks r d a b.
Proof. intros Ha. induction n as [|n IH]; [done|]. cbn [replicate app two_calls]. by rewrite Ha. Qed.
Lemma other_ended key chunks d a b n : one_step key chunks d b = None -> two_calls key chunks (replicate n false) d a b = (d, a, b).
Proof. intros Ha. induction n as [|n IH]; [done|]. cbn [replicate two_calls]. by rewrite Ha. Qed.
Lemma one_moves key chunks d a b d' a' n r : one_step key chunks d a = Some (d', a') -> 0 < n ->
  two_calls key chunks (replicate n true ++ r) d a b = two_calls key chunks (replicate (n - 1) true ++ r) d' a' b.
Proof. intros Ha Hn. destruct n as [|n]; [lia|]. cbn [replicate app two_calls]. rewrite Ha. by replace (S n - 1) with n by lia. Qed.
Lemma writes_all key chunks i cs : forall d pre n r b, data_of d i = pre -> length cs < n ->
  exists d', two_calls key chunks (replicate n true ++ r) d (SWrite i (length pre) cs) b = two_calls key chunks (replicate (n - S (length cs)) true ++ r) d' SRename b /\
    dk_names d' = dk_names d /\ data_of d' i = (pre ++ concat cs : bytes).
Proof.
  induction cs as [|c cs IH]; intros d pre n r b Hd Hn; cbn [length] in Hn.
  - exists d. rewrite (one_moves key chunks d (SWrite i (length pre) []) b d SRename n r eq_refl) by lia. split; [done|]. split; [done|]. cbn [concat]. by rewrite app_nil_r.
  - erewrite one_moves by (reflexivity || lia). rewrite Hd.
    set (d1 := Disk (dk_names d) (<[i:=write_at pre (length pre) c]> (dk_data d)) (dk_next d)).
    assert (H1 : data_of d1 i = (pre ++ c : bytes)).
    { unfold data_of. subst d1. cbn [dk_data]. rewrite lookup_insert. unfold write_at. rewrite firstn_all, Nat.sub_diag. cbn [repeat app]. rewrite drop_ge by lia. by rewrite app_nil_r. }
    destruct (IH d1 (pre ++ c) (n - 1) r b H1 ltac:(lia)) as (d' & H & Hnames & Hdata). exists d'. rewrite app_length in H. rewrite H. cbn [length]. replace (n - 1 - S (length cs)) with (n - S (S (length cs))) by lia.
    split; [done|]. split; [done|]. rewrite Hdata. cbn [concat]. by rewrite app_assoc.
Qed.
Theorem C87_one_after_the_other_partial key chunks d n m : dk_names d !! loc_of key = None -> length chunks + 6 <= n -> 2 <= m ->
  exists d', two_calls key chunks (replicate n true ++ replicate m false) d SOpen SOpen = (d', SGot (concat chunks), SGot (concat chunks)).
Proof.
  intros H1 Hn Hm. erewrite one_moves by (cbn [one_step]; rewrite ?H1; reflexivity || lia).
  assert (Hc : exists d1 i, one_step key chunks d SCreate = Some (d1, SWrite i 0 chunks) /\ dk_names d1 !! tmp_of key = Some i /\ data_of d1 i = []).
  { cbn [one_step]. destruct (dk_names d !! tmp_of key) as [i|] eqn:Et.
    - eexists _, i. split; [reflexivity|]. split; [exact Et|]. unfold data_of. cbn [dk_data]. by rewrite lookup_insert.
    - eexists _, _. split; [reflexivity|]. cbn [dk_names]. rewrite lookup_insert. split; [done|]. unfold data_of. cbn [dk_data]. by rewrite lookup_insert. }
  destruct Hc as (d1 & i & Hs & Ht & Hd). rewrite (one_moves _ _ _ _ _ _ _ _ _ Hs) by lia.
  destruct (writes_all key chunks i chunks d1 [] (n - 1 - 1) (replicate m false) SOpen Hd ltac:(lia)) as (d2 & H2 & Hnames & Hdata). cbn [length] in H2. rewrite H2. cbn [app] in Hdata.
  set (d3 := Disk (<[loc_of key := i]> (delete (tmp_of key) (dk_names d2))) (dk_data d2) (dk_next d2)).
  assert (H3 : one_step key chunks d2 SRename = Some (d3, SOpen2)) by (cbn [one_step]; rewrite Hnames, Ht; by subst d3; rewrite Hnames).
  rewrite (one_moves _ _ _ _ _ _ _ _ _ H3) by lia.
  assert (Hl : dk_names d3 !! loc_of key = Some i) by (subst d3; cbn [dk_names]; apply lookup_insert).
  assert (H4 : one_step key chunks d3 SOpen2 = Some (d3, SRead i)) by (cbn [one_step]; by rewrite Hl).
  rewrite (one_moves _ _ _ _ _ _ _ _ _ H4) by lia.
  assert (Hr : one_step key chunks d3 (SRead i) = Some (d3, SGot (concat chunks))) by (cbn [one_step]; f_equal; f_equal; f_equal; exact Hdata).
  rewrite (one_moves _ _ _ _ _ _ _ _ _ Hr) by lia. rewrite one_ended by reflexivity.
  destruct m as [|[|m]]; [lia|lia|]. cbn [replicate two_calls].
  assert (Hs1 : one_step key chunks d3 SOpen = Some (d3, SRead i)) by (cbn [one_step]; by rewrite Hl). rewrite Hs1, Hr. exists d3. by apply other_ended.
Qed.
End Cache.
Print Assumptions C87_output_right_partial.
Print Assumptions C87_files_partial.
Print Assumptions C87_one_after_the_other_partial.
Print Assumptions C87_same_question_refuted.
Print Assumptions C87_other_hash_refuted.
Print Assumptions C87_close_error_refuted.
Print Assumptions C87_two_calls_refuted.

(** A compression, and calls that meet the hypotheses: each byte after a mark, and another mark at the end. *)
Fixpoint mark (x : bytes) : bytes := match x with [] => ["0"%char] | c :: r => "1"%char :: c :: mark r end.
Fixpoint unmark_n (n : nat) (x : bytes) : option bytes :=
  match n with
  | 0 => None
  | S n => match x with
           | "0"%char :: [] => Some []
           | "1"%char :: c :: r => cons c <$> unmark_n n r
           | _ => None
           end
  end.
Definition unmark (x : bytes) : option bytes := unmark_n (S (length x)) x.
Lemma mark_ok : compression mark unmark.
Proof.
  assert (H1 : forall x n, length x < n -> unmark_n n (mark x) = Some x).
  { induction x as [|c x IH]; intros [|n] Hn; cbn [length] in Hn; [lia|done|lia|]. cbn [mark unmark_n]. by rewrite IH by lia. }
  assert (Hlen : forall x, length x < length (mark x)) by (induction x; cbn [mark length]; lia).
  split.
  - intros x. unfold unmark. apply H1. specialize (Hlen x). lia.
  - intros x p q E Hq. unfold unmark. generalize (S (length p)). intros n. revert p n E. induction x as [|c x IH]; intros p n E; cbn [mark] in E.
    + destruct p as [|a p]; [by destruct n|]. injection E as <- E. destruct p; [by destruct Hq|discriminate E].
    + destruct n as [|n]; [done|]. destruct p as [|a [|b p]]; [done|injection E as <- E; done|]. injection E as <- <- E. cbn [unmark_n]. by rewrite (IH p n E).
Qed.
Definition ca_head : bytes := repeat "a"%char 40.
Definition ca_printed : bytes := ca_head ++ [NL].
Definition ca_log (out : bytes) : list bytes -> outcome bytes := fun args => if decide (args = [B "log"; B "--all"]) then Ret out else Ret (B "other").
Definition ca_before : state := State ca_printed (ca_log (B "one")).
Definition ca_after : state := State ca_printed (ca_log (B "two")).      (* a commit was added on another branch *)
Definition ca_run (out : bytes) : run := Run [mark out] true [].
Example C87_hypotheses_hold :
  compression mark unmark /\ run_of mark ca_before [B "log"; B "--all"] (ca_run (B "one")) /\
  (* used again: right *)
  cached_result unmark (after_calls id [CachedCall ca_before [B "log"; B "--all"] (ca_run (B "one")) None]) (cache_key id [B "log"; B "--all"] (st_head ca_before)) (ca_run (B "one")) = Ret (B "one") /\
  (* after a crash in the middle: right *)
  cached_result unmark (after_calls id [CachedCall ca_before [B "log"; B "--all"] (ca_run (B "one")) (Some 2)]) (cache_key id [B "log"; B "--all"] (st_head ca_after)) (ca_run (B "two")) = Ret (B "two") /\
  (* another branch changed: wrong *)
  st_git ca_after [B "log"; B "--all"] = Ret (B "two") /\
  cached_result unmark (after_calls id [CachedCall ca_before [B "log"; B "--all"] (ca_run (B "one")) None]) (cache_key id [B "log"; B "--all"] (st_head ca_after)) (ca_run (B "two")) = Ret (B "one") /\
  (* other arguments: wrong *)
  asked [B "log"; B "a@b"] (st_head ca_before) = asked [B "log"; B "a"; B "b"] (st_head ca_before) /\
  st_head ca_before = ca_head.
Proof.
  split; [exact mark_ok|]. split; [by split|]. split; [vm_compute; reflexivity|]. split; [vm_compute; reflexivity|]. split; [vm_compute; reflexivity|]. split; [vm_compute; reflexivity|]. split; vm_compute; reflexivity.
Qed.
