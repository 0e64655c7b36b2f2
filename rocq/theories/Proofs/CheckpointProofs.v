(** * Round trip of checkpoints *)
From Verif.Model Require Import Base IncBlame LogParser Msgp Process Checkpoint.
From Verif.Spec Require Import Checkpoint Processing.
From Verif.Proofs Require Import MsgpProofs.
From Coq Require Import Lia.

Lemma ofold_app {S A} (f : S -> A -> outcome S) l1 l2 s : ofold f s (l1 ++ l2) = do s' <- ofold f s l1; ofold f s' l2.
Proof. revert s. induction l1 as [|x l1 IH]; intros s; [done|]. cbn. destruct (f s x); cbn; [apply IH|done|done]. Qed.

Definition pos (i : nat) : N := N.of_nat (S i).
Lemma pos_inj i j : pos i = pos j -> i = j.
Proof. unfold pos. lia. Qed.

Section writer.
  Context (hash : bytes -> N) (R : prepo).

  (** ** Lines *)
  Record linv (s : lst) (ol : list nat) : Prop := LInv {
    l_nodup : NoDup ol;
    l_ptrs : forall q n, ls_ptrs s !! q = Some n <-> exists i, ol !! i = Some q /\ n = pos i;
    l_c : ls_c s = N.of_nat (length ol);
    l_len : length (ls_lines s) = length ol;
    l_lines : forall i q, ol !! i = Some q -> exists l, pr_lines R !! q = Some l /\ ls_lines s !! i = Some (DLine (pos i) (l_commit l) (hash (l_data l)));
    l_hashes : forall h, h ∈ ls_hashes s <-> exists d, d ∈ ls_data s /\ dd_pointer d = h;
    l_data_from : forall d, d ∈ ls_data s -> exists q l, q ∈ ol /\ pr_lines R !! q = Some l /\ d = DLData (hash (l_data l)) (l_data l);
    l_cover : forall q l, q ∈ ol -> pr_lines R !! q = Some l -> hash (l_data l) ∈ ls_hashes s;
    l_dnodup : NoDup (dd_pointer <$> ls_data s) }.

  Lemma linv_init : linv (LSt 0 ∅ ∅ [] []) [].
  Proof.
    split; cbn.
    - constructor.
    - intros q n. rewrite lookup_empty. split; [done|]. by intros (i & Hi & _).
    - done.
    - done.
    - done.
    - intros h. split; [set_solver|]. intros (d & Hd & _). by apply elem_of_nil in Hd.
    - intros d Hd. by apply elem_of_nil in Hd.
    - intros q l Hq. by apply elem_of_nil in Hq.
    - constructor.
  Qed.

  Lemma lookup_snoc {A} (l : list A) x i y : (l ++ [x]) !! i = Some y <-> l !! i = Some y \/ (i = length l /\ x = y).
  Proof.
    rewrite lookup_app_Some. split.
    - intros [?|[Hl Hx]]; [by left|]. right. destruct (i - length l) as [|k] eqn:E; [|by destruct k]. cbn in Hx. injection Hx as ->. split; [lia|done].
    - intros [?|[-> ->]]; [by left|]. right. split; [lia|]. by rewrite Nat.sub_diag.
  Qed.

  Lemma write_line_ok s ol q : linv s ol -> q < length (pr_lines R) ->
    exists s' n ol', write_line hash R s q = Ret (s', n) /\ linv s' (ol ++ ol') /\ ls_ptrs s' !! q = Some n /\ forall x, x ∈ ol' -> x = q.
  Proof.
    intros H Hq. unfold write_line. destruct (ls_ptrs s !! q) as [n|] eqn:Ep.
    - exists s, n, []. rewrite app_nil_r. split_and!; try done. intros x Hx. by apply elem_of_nil in Hx.
    - destruct (pr_lines R !! q) as [l|] eqn:El; [|apply lookup_ge_None in El; lia].
      eexists _, _, [q]. split; [reflexivity|]. cbn [ls_ptrs]. split; [|split; [by rewrite lookup_insert|intros x Hx; by apply elem_of_list_singleton in Hx]].
      assert (Hnq : q ∉ ol).
      { intros Hin. apply elem_of_list_lookup in Hin as [i Hi]. assert (ls_ptrs s !! q = Some (pos i)) as E; [|by rewrite E in Ep]. apply (l_ptrs _ _ H). by exists i. }
      assert (Hc : (ls_c s + 1)%N = pos (length ol)) by (rewrite (l_c _ _ H); unfold pos; lia).
      split; cbn [ls_ptrs ls_c ls_lines ls_hashes ls_data].
      + apply NoDup_app. split; [apply (l_nodup _ _ H)|]. split; [|apply NoDup_singleton]. intros x Hx Hx'. apply elem_of_list_singleton in Hx' as ->. done.
      + intros x n. setoid_rewrite lookup_snoc. destruct (decide (x = q)) as [->|Hne].
        * rewrite lookup_insert. split.
          -- intros [= <-]. exists (length ol). auto.
          -- intros (i & [Hi|[-> _]] & ->); [|by rewrite Hc]. exfalso. apply Hnq. by eapply elem_of_list_lookup_2.
        * rewrite lookup_insert_ne by done. rewrite (l_ptrs _ _ H). split.
          -- intros (i & Hi & ->). exists i. auto.
          -- intros (i & [Hi|[-> ?]] & ->); [by exists i|by subst].
      + rewrite Hc, app_length. cbn. unfold pos. lia.
      + rewrite !app_length. cbn. by rewrite (l_len _ _ H).
      + intros i x Hi. apply lookup_snoc in Hi as [Hi|[-> <-]].
        * destruct (l_lines _ _ H i x Hi) as (l' & ? & Hl'). exists l'. split; [done|]. apply lookup_app_l_Some. exact Hl'.
        * exists l. split; [done|]. rewrite <-(l_len _ _ H), Hc, (l_len _ _ H). rewrite <-(l_len _ _ H) at 1. apply lookup_snoc. right. split; [done|]. done.
      + intros h. case_bool_decide as Hk.
        * apply (l_hashes _ _ H).
        * rewrite elem_of_union, elem_of_singleton, (l_hashes _ _ H). setoid_rewrite elem_of_app. setoid_rewrite elem_of_list_singleton. split.
          -- intros [->|(d & ? & ?)]; [by eexists; split; [by right|]|exists d; auto].
          -- intros (d & [?| ->] & <-); [right; eauto|by left].
      + intros d. assert (Hold : d ∈ ls_data s -> exists q0 l0, q0 ∈ ol ++ [q] /\ pr_lines R !! q0 = Some l0 /\ d = DLData (hash (l_data l0)) (l_data l0)).
        { intros Hd. destruct (l_data_from _ _ H d Hd) as (q0 & l0 & ? & ? & ?). exists q0, l0. split; [apply elem_of_app; by left|done]. }
        case_bool_decide as Hk; [exact Hold|]. rewrite elem_of_app, elem_of_list_singleton. intros [Hd| ->]; [by apply Hold|].
        exists q, l. split; [apply elem_of_app; right; by constructor|done].
      + intros x l' Hx Hl'. apply elem_of_app in Hx as [Hx|Hx].
        * pose proof (l_cover _ _ H x l' Hx Hl'). case_bool_decide; set_solver.
        * apply elem_of_list_singleton in Hx as ->. rewrite El in Hl'. injection Hl' as <-. case_bool_decide; set_solver.
      + case_bool_decide as Hk; [apply (l_dnodup _ _ H)|]. rewrite fmap_app. apply NoDup_app. split; [apply (l_dnodup _ _ H)|]. split; [|apply NoDup_singleton].
        intros h Hh Hh'. apply elem_of_list_singleton in Hh'. cbn in Hh'. subst h. apply Hk, (l_hashes _ _ H).
        apply elem_of_list_fmap in Hh as (d & Hd & Hin). by exists d.
  Qed.

  Lemma ptrs_grow s ol s' ol' q n : linv s ol -> linv s' (ol ++ ol') -> ls_ptrs s !! q = Some n -> ls_ptrs s' !! q = Some n.
  Proof.
    intros H H' E. apply (l_ptrs _ _ H) in E as (i & Hi & ->). apply (l_ptrs _ _ H'). exists i. split; [by apply lookup_app_l_Some|done].
  Qed.

  Lemma write_lines_ok qs : forall s ol, linv s ol -> (forall q, q ∈ qs -> q < length (pr_lines R)) ->
    exists s' ns ol', write_lines hash R s qs = Ret (s', ns) /\ linv s' (ol ++ ol') /\
      Forall2 (fun q n => ls_ptrs s' !! q = Some n) qs ns /\ forall x, x ∈ ol' -> x ∈ qs.
  Proof.
    induction qs as [|q qs IH]; intros s ol H Hq.
    - exists s, [], []. rewrite app_nil_r. split_and!; try done.
    - destruct (write_line_ok s ol q H) as (s1 & n & ol1 & E1 & H1 & Hn & Hx1); [apply Hq; by constructor|].
      destruct (IH s1 (ol ++ ol1) H1) as (s2 & ns & ol2 & E2 & H2 & Hns & Hx2); [intros x Hx; apply Hq; by constructor|].
      exists s2, (n :: ns), (ol1 ++ ol2). cbn [write_lines]. rewrite E1. cbn [obind fst snd]. rewrite E2. cbn [obind fst snd].
      rewrite app_assoc. split_and!; [done|done| |].
      + constructor; [eapply ptrs_grow; [exact H1|exact H2|exact Hn]|done].
      + intros x Hx. apply elem_of_app in Hx as [Hx|Hx]; [rewrite (Hx1 x Hx); by constructor|constructor; by apply Hx2].
  Qed.

  (** ** Blames and rows *)
  Record winv (s : wst) (ol ob : list nat) (done : list (bytes * (bytes * nat))) : Prop := WInv {
    w_l : linv (ws_l s) ol;
    w_nodup : NoDup ob;
    w_ptrs : forall b n, ws_ptrs s !! b = Some n <-> exists i, ob !! i = Some b /\ n = pos i;
    w_c : ws_c s = N.of_nat (length ob);
    w_len : length (ws_blames s) = length ob;
    w_blames : forall i b, ob !! i = Some b -> exists bl ns, pr_blames R !! b = Some bl /\
      ws_blames s !! i = Some (DBlame (pos i) (pb_commit bl) ns (pb_binary bl)) /\
      Forall2 (fun q n => ls_ptrs (ws_l s) !! q = Some n) (pb_lines bl) ns;
    w_rows : Forall2 (fun (x : bytes * (bytes * nat)) r => exists n, ws_ptrs s !! x.2.2 = Some n /\ r = DRow x.1 x.2.1 n) done (ws_rows s);
    w_from_b : forall b, b ∈ ob -> exists c f, (c, (f, b)) ∈ done;
    w_from_l : forall q, q ∈ ol -> exists b bl, b ∈ ob /\ pr_blames R !! b = Some bl /\ q ∈ pb_lines bl }.

  Lemma winv_init : winv wst_init [] [] [].
  Proof.
    split; cbn.
    - apply linv_init.
    - constructor.
    - intros q n. rewrite lookup_empty. split; [done|]. by intros (i & Hi & _).
    - done.
    - done.
    - done.
    - constructor.
    - intros b Hb. by apply elem_of_nil in Hb.
    - intros b Hb. by apply elem_of_nil in Hb.
  Qed.

  Lemma write_file_ok s ol ob done x : sound R -> winv s ol ob done -> x.2.2 < length (pr_blames R) ->
    exists s' ol' ob', write_file hash R s x = Ret s' /\ winv s' (ol ++ ol') (ob ++ ob') (done ++ [x]).
  Proof.
    intros HS H Hb. destruct x as (c & f & b). cbn [fst snd] in Hb. unfold write_file.
    destruct (ws_ptrs s !! b) as [n|] eqn:Ep.
    - eexists _, [], []. split; [reflexivity|]. rewrite !app_nil_r. destruct H as [H1 H2 H3 H4 H5 H6 H7 H8 H9]. split; cbn [ws_l ws_ptrs ws_c ws_blames ws_rows]; try done.
      + apply Forall2_app; [done|]. constructor; [|constructor]. by exists n.
      + intros b' Hb'. destruct (H8 b' Hb') as (c' & f' & Hin). exists c', f'. apply elem_of_app. by left.
    - destruct (pr_blames R !! b) as [bl|] eqn:Eb; [|apply lookup_ge_None in Eb; lia].
      destruct (write_lines_ok (pb_lines bl) (ws_l s) ol (w_l _ _ _ _ H)) as (s1 & ns & ol1 & E1 & H1 & Hns & Hx1).
      { intros q Hq. by eapply (proj2 HS). }
      rewrite E1. cbn [obind fst snd]. eexists _, ol1, [b]. split; [reflexivity|].
      assert (Hnb : b ∉ ob).
      { intros Hin. apply elem_of_list_lookup in Hin as [i Hi]. assert (ws_ptrs s !! b = Some (pos i)) as E; [|by rewrite E in Ep]. apply (w_ptrs _ _ _ _ H). by exists i. }
      assert (Hc : (ws_c s + 1)%N = pos (length ob)) by (rewrite (w_c _ _ _ _ H); unfold pos; lia).
      split; cbn [ws_l ws_ptrs ws_c ws_blames ws_rows].
      + done.
      + apply NoDup_app. split; [apply (w_nodup _ _ _ _ H)|]. split; [|apply NoDup_singleton]. intros x Hx Hx'. apply elem_of_list_singleton in Hx' as ->. done.
      + intros x n. setoid_rewrite lookup_snoc. destruct (decide (x = b)) as [->|Hne].
        * rewrite lookup_insert. split.
          -- intros [= <-]. exists (length ob). auto.
          -- intros (i & [Hi|[-> _]] & ->); [|by rewrite Hc]. exfalso. apply Hnb. by eapply elem_of_list_lookup_2.
        * rewrite lookup_insert_ne by done. rewrite (w_ptrs _ _ _ _ H). split.
          -- intros (i & Hi & ->). exists i. auto.
          -- intros (i & [Hi|[-> ?]] & ->); [by exists i|by subst].
      + rewrite Hc, app_length. cbn. unfold pos. lia.
      + rewrite !app_length. cbn. by rewrite (w_len _ _ _ _ H).
      + intros i x Hi. apply lookup_snoc in Hi as [Hi|[-> <-]].
        * destruct (w_blames _ _ _ _ H i x Hi) as (bl' & ns' & ? & Hl' & HF). exists bl', ns'. split; [done|]. split; [by apply lookup_app_l_Some|].
          eapply Forall2_impl; [exact HF|]. intros q n Hqn. by eapply ptrs_grow; [exact (w_l _ _ _ _ H)|exact H1|].
        * exists bl, ns. split; [done|]. split; [|done]. rewrite Hc. apply lookup_snoc. right. split; [by rewrite (w_len _ _ _ _ H)|done].
      + apply Forall2_app.
        * eapply Forall2_impl; [exact (w_rows _ _ _ _ H)|]. intros x r (n & Hn & ->). exists n. split; [|done].
          rewrite lookup_insert_ne; [done|]. intros E. rewrite <-E in Hn. by rewrite Hn in Ep.
        * constructor; [|constructor]. eexists. cbn [fst snd]. by rewrite lookup_insert.
      + intros x Hx. apply elem_of_app in Hx as [Hx|Hx].
        * destruct (w_from_b _ _ _ _ H x Hx) as (c' & f' & Hin). exists c', f'. apply elem_of_app. by left.
        * apply elem_of_list_singleton in Hx as ->. exists c, f. apply elem_of_app. right. by constructor.
      + intros q Hq. apply elem_of_app in Hq as [Hq|Hq].
        * destruct (w_from_l _ _ _ _ H q Hq) as (b' & bl' & ? & ? & ?). exists b', bl'. split; [apply elem_of_app; by left|done].
        * exists b, bl. split; [apply elem_of_app; right; by constructor|]. split; [done|by apply Hx1].
  Qed.

  Lemma write_files_ok L : sound R -> (forall x, x ∈ L -> x.2.2 < length (pr_blames R)) -> forall s ol ob done, winv s ol ob done ->
    exists s' ol' ob', ofold (write_file hash R) s L = Ret s' /\ winv s' ol' ob' (done ++ L).
  Proof.
    intros HS. induction L as [|x L IH]; intros HL s ol ob done H.
    - exists s, ol, ob. rewrite app_nil_r. done.
    - destruct (write_file_ok s ol ob done x HS H) as (s1 & ol1 & ob1 & E1 & H1); [apply HL; by constructor|].
      destruct (IH (fun y Hy => HL y ltac:(by constructor)) _ _ _ _ H1) as (s2 & ol2 & ob2 & E2 & H2).
      exists s2, ol2, ob2. cbn [ofold]. rewrite E1. cbn [obind]. split; [done|]. by rewrite <-app_assoc in H2.
  Qed.

  (** ** The list of files *)
  Lemma file_list_elem o1 o2 c f b : any_perm o1 -> (forall c, any_perm (o2 c)) ->
    (c, (f, b)) ∈ file_list R o1 o2 <-> blame_at R c f = Some b.
  Proof.
    intros H1 H2. unfold file_list, blame_at. rewrite elem_of_list_In, in_concat. setoid_rewrite in_map_iff. setoid_rewrite <-elem_of_list_In. split.
    - intros (l & ((c' & fs) & <- & Hin) & Hx). unfold any_perm in *. rewrite (H1 _) in Hin. apply elem_of_map_to_list in Hin.
      cbn [fst snd] in Hx. apply elem_of_list_In, in_map_iff in Hx as ((f' & b') & [= <- <- <-] & Hf). apply elem_of_list_In in Hf.
      rewrite (H2 c' _) in Hf. apply elem_of_map_to_list in Hf. by rewrite Hin.
    - destruct (pr_files R !! c) as [fs|] eqn:Ec; [|done]. cbn. intros Hf.
      eexists. split; [exists (c, fs); split; [reflexivity|]|].
      + unfold any_perm in *. rewrite (H1 _). by apply elem_of_map_to_list.
      + cbn [fst snd]. apply elem_of_list_In, in_map_iff. exists (f, b). split; [done|]. apply elem_of_list_In. unfold any_perm in *. rewrite (H2 c _). by apply elem_of_map_to_list.
  Qed.
End writer.

(** ** Reader *)
Lemma foldl_ldata L : forall m0 h, (forall d, d ∈ L -> dd_pointer d <> h) ->
  foldl (fun (m : gmap N bytes) d => <[ dd_pointer d := dd_data d ]> m) m0 L !! h = m0 !! h.
Proof.
  induction L as [|d L IH]; intros m0 h Hn; [done|]. cbn. rewrite IH; [|intros d' Hd'; apply Hn; by constructor].
  apply lookup_insert_ne. apply Hn. by constructor.
Qed.
Lemma read_ldata_elem L : forall m0 h, (exists d, d ∈ L /\ dd_pointer d = h) ->
  exists d, d ∈ L /\ dd_pointer d = h /\ foldl (fun (m : gmap N bytes) d => <[ dd_pointer d := dd_data d ]> m) m0 L !! h = Some (dd_data d).
Proof.
  induction L as [|d L IH]; intros m0 h (d0 & Hd0 & Hp); [by apply elem_of_nil in Hd0|].
  destruct (decide (Exists (fun d => dd_pointer d = h) L)) as [HE|HE].
  - apply Exists_exists in HE as (d1 & Hd1 & Hp1). cbn. destruct (IH (<[ dd_pointer d := dd_data d ]> m0) h ltac:(by exists d1)) as (d2 & ? & ? & ?).
    exists d2. split; [by constructor|done].
  - exists d. apply elem_of_cons in Hd0 as [->|Hd0]; [|exfalso; apply HE, Exists_exists; by exists d0].
    split; [by constructor|]. split; [done|]. cbn. rewrite foldl_ldata; [by rewrite <-Hp, lookup_insert|].
    intros d' Hd' Hp'. apply HE, Exists_exists. by exists d'.
Qed.

Lemma read_lines_ok (m : gmap N bytes) L :
  (forall i d, L !! i = Some d -> dl_pointer d = pos i /\ is_Some (m !! dl_data d)) ->
  exists mp hp, ofold (read_line m) (∅, []) L = Ret (mp, hp) /\ length hp = length L /\
    (forall n i, mp !! n = Some i <-> n = pos i /\ i < length L) /\
    forall i d v, L !! i = Some d -> m !! dl_data d = Some v -> hp !! i = Some (Line v (dl_commit d)).
Proof.
  induction L as [|d L IH] using rev_ind; intros HL.
  - exists ∅, []. split_and!; try done. intros n i. rewrite lookup_empty. cbn. split; [done|lia].
  - destruct IH as (mp & hp & E & Hl & Hm & Hh).
    { intros i d' Hi. apply HL. by apply lookup_app_l_Some. }
    destruct (HL (length L) d) as [Hp [v Hv]]; [apply lookup_snoc; by right|].
    rewrite ofold_app, E. cbn. unfold read_line. rewrite Hv. cbn. eexists _, _. split; [reflexivity|]. rewrite !app_length. cbn [length fst snd]. split; [by rewrite Hl|]. split.
    + intros n i. rewrite Hp, Hl. destruct (decide (n = pos (length L))) as [->|Hne].
      * rewrite lookup_insert. split; [intros [= <-]; split; [done|lia]|]. intros [E' _]. apply pos_inj in E'. by subst.
      * rewrite lookup_insert_ne by done. rewrite Hm. split; intros [-> ?]; (split; [done|]); [lia|].
        destruct (decide (i = length L)) as [->|]; [done|lia].
    + intros i d' v' Hi Hv'. apply lookup_snoc in Hi as [Hi|[-> <-]].
      * apply lookup_app_l_Some. by eapply Hh.
      * rewrite Hv in Hv'. injection Hv' as <-. apply lookup_snoc. right. done.
Qed.

Lemma omapM_lookup {A C} (f : A -> outcome C) l l' : Forall2 (fun x y => f x = Ret y) l l' -> omapM f l = Ret l'.
Proof. induction 1 as [|x y l l' E _ IH]; [done|]. cbn. by rewrite E, IH. Qed.

Lemma read_blames_ok (m : gmap N nat) L :
  (forall i d, L !! i = Some d -> db_pointer d = pos i /\ forall n, n ∈ db_lines d -> is_Some (m !! n)) ->
  exists mp hp, ofold (read_blame m) (∅, []) L = Ret (mp, hp) /\ length hp = length L /\
    (forall n i, mp !! n = Some i <-> n = pos i /\ i < length L) /\
    forall i d, L !! i = Some d -> exists ls, Forall2 (fun n q => m !! n = Some q) (db_lines d) ls /\ hp !! i = Some (PBlame (db_commit d) ls (db_binary d)).
Proof.
  induction L as [|d L IH] using rev_ind; intros HL.
  - exists ∅, []. split_and!; try done. intros n i. rewrite lookup_empty. cbn. split; [done|lia].
  - destruct IH as (mp & hp & E & Hl & Hm & Hh).
    { intros i d' Hi. apply HL. by apply lookup_app_l_Some. }
    destruct (HL (length L) d) as [Hp Hls]; [apply lookup_snoc; by right|].
    assert (exists ls, Forall2 (fun n q => m !! n = Some q) (db_lines d) ls) as [ls HF].
    { clear -Hls. induction (db_lines d) as [|n ns IH]; [by exists []|]. destruct (Hls n ltac:(by constructor)) as [q Hq].
      destruct IH as [ls Hls']; [intros x Hx; apply Hls; by constructor|]. exists (q :: ls). by constructor. }
    rewrite ofold_app, E. cbn. unfold read_blame. rewrite (omapM_lookup _ (db_lines d) ls); [|eapply Forall2_impl; [exact HF|]; intros x y Hxy; by rewrite Hxy].
    cbn. eexists _, _. split; [reflexivity|]. rewrite !app_length. cbn [length fst snd]. split; [by rewrite Hl|]. split.
    + intros n i. rewrite Hp, Hl. destruct (decide (n = pos (length L))) as [->|Hne].
      * rewrite lookup_insert. split; [intros [= <-]; split; [done|lia]|]. intros [E' _]. apply pos_inj in E'. by subst.
      * rewrite lookup_insert_ne by done. rewrite Hm. split; intros [-> ?]; (split; [done|]); [lia|].
        destruct (decide (i = length L)) as [->|]; [done|lia].
    + intros i d' Hi. apply lookup_snoc in Hi as [Hi|[-> <-]].
      * destruct (Hh i d' Hi) as (ls' & ? & ?). exists ls'. split; [done|]. by apply lookup_app_l_Some.
      * exists ls. split; [done|]. apply lookup_snoc. right. done.
Qed.

Lemma read_rows_ok (m : gmap N nat) L : (forall d, d ∈ L -> is_Some (m !! dr_blame d)) ->
  (forall d d', d ∈ L -> d' ∈ L -> dr_commit d = dr_commit d' -> dr_path d = dr_path d' -> dr_blame d = dr_blame d') ->
  exists fs, ofold (read_row m) ∅ L = Ret fs /\
    (forall c f b, (fs !! c ≫= fun x : gmap bytes nat => x !! f) = Some b <-> exists d, d ∈ L /\ dr_commit d = c /\ dr_path d = f /\ m !! dr_blame d = Some b) /\
    (forall c, is_Some (fs !! c) <-> exists d, d ∈ L /\ dr_commit d = c).
Proof.
  induction L as [|d L IH] using rev_ind; intros Hm Hf.
  - exists ∅. split; [done|]. split.
    + intros c f b. rewrite lookup_empty. split; [done|]. intros (d & Hd & _). by apply elem_of_nil in Hd.
    + intros c. rewrite lookup_empty. split; [by intros ?%is_Some_None|]. intros (d & Hd & _). by apply elem_of_nil in Hd.
  - destruct IH as (fs & E & H1 & H2).
    { intros x Hx. apply Hm, elem_of_app. by left. }
    { intros x y Hx Hy. apply Hf; apply elem_of_app; by left. }
    destruct (Hm d) as [b Hb]; [apply elem_of_app; right; by constructor|].
    rewrite ofold_app, E. cbn. unfold read_row. rewrite Hb. cbn. eexists. split; [reflexivity|]. split.
    + intros c f b'. setoid_rewrite elem_of_app. setoid_rewrite elem_of_list_singleton.
      destruct (decide (c = dr_commit d)) as [->|Hc].
      * rewrite lookup_insert. cbn. destruct (decide (f = dr_path d)) as [->|Hfd].
        -- rewrite lookup_insert. split; [intros [= <-]; exists d; auto|]. intros (d' & [Hd'| ->] & Ec & Ef & Hb'); [|congruence].
           rewrite (Hf d' d) in Hb'; [congruence|apply elem_of_app; by left|apply elem_of_app; right; by constructor|done|done].
        -- rewrite lookup_insert_ne by done. specialize (H1 (dr_commit d) f b').
           assert ((default ∅ (fs !! dr_commit d) : gmap bytes nat) !! f = (fs !! dr_commit d ≫= fun x : gmap bytes nat => x !! f)) as ->.
           { destruct (fs !! dr_commit d); cbn; [done|apply lookup_empty]. }
           rewrite H1. split; [intros (d' & ? & ? & ? & ?); exists d'; auto|]. intros (d' & [?| ->] & ? & ? & ?); [exists d'; auto|by subst].
      * rewrite lookup_insert_ne by done. rewrite (H1 c f b'). split; [intros (d' & ? & ? & ? & ?); exists d'; auto|].
        intros (d' & [?| ->] & ? & ? & ?); [exists d'; auto|by subst].
    + intros c. setoid_rewrite elem_of_app. setoid_rewrite elem_of_list_singleton. destruct (decide (c = dr_commit d)) as [->|Hc].
      * rewrite lookup_insert. split; [intros _; exists d; auto|by eexists].
      * rewrite lookup_insert_ne by done. rewrite H2. split; [intros (d' & ? & ?); exists d'; auto|]. intros (d' & [?| ->] & ?); [exists d'; auto|by subst].
Qed.

(** ** The state that is read, related to the state that was written *)
Record iso (hash : bytes -> N) (R R' : prepo) (ob ol : list nat) : Prop := Iso {
  i_sound : sound R;
  i_nb : NoDup ob;
  i_nl : NoDup ol;
  i_at : forall c f i, blame_at R' c f = Some i <-> exists b, blame_at R c f = Some b /\ ob !! i = Some b;
  i_known : forall c, is_Some (pr_files R' !! c) <-> exists f, is_Some (blame_at R c f);
  i_cover : forall c f b, blame_at R c f = Some b -> b ∈ ob;
  i_blame : forall i b, ob !! i = Some b -> exists bl ls, pr_blames R !! b = Some bl /\
    Forall2 (fun q j => ol !! j = Some q) (pb_lines bl) ls /\ pr_blames R' !! i = Some (PBlame (pb_commit bl) ls (pb_binary bl));
  i_line : forall j q, ol !! j = Some q -> exists l v, pr_lines R !! q = Some l /\ pr_lines R' !! j = Some (Line v (l_commit l)) /\
    hash v = hash (l_data l) /\ exists l', used_line R l' /\ v = l_data l';
  i_collide : forall j j' q q' l l' v v', ol !! j = Some q -> ol !! j' = Some q' -> pr_lines R !! q = Some l -> pr_lines R !! q' = Some l' ->
    hash (l_data l) = hash (l_data l') -> pr_lines R' !! j = Some v -> pr_lines R' !! j' = Some v' -> l_data v = l_data v';
  i_lenb : length (pr_blames R') = length ob;
  i_lenl : length (pr_lines R') = length ol;
  i_used : forall q l, q ∈ ol -> pr_lines R !! q = Some l -> used_line R l }.

Lemma blame_at_bound R c f b : sound R -> blame_at R c f = Some b -> b < length (pr_blames R).
Proof. intros [H _]. unfold blame_at. destruct (pr_files R !! c) as [fs|] eqn:E; [|done]. cbn. by apply (H c). Qed.

Lemma roundtrip_iso hash R o1 o2 : sound R -> any_perm o1 -> (forall c, any_perm (o2 c)) ->
  exists w, write_records hash R o1 o2 = Ret w /\ exists ol ob, winv hash R w ol ob (file_list R o1 o2) /\
  exists R', read_records (ws_rows w, true) (ws_blames w, true) (ls_lines (ws_l w), true) (ls_data (ws_l w), true) = Ret R' /\
    iso hash R R' ob ol.
Proof.
  intros HS H1 H2. set (L := file_list R o1 o2).
  assert (HL : forall x, x ∈ L -> blame_at R x.1 x.2.1 = Some x.2.2).
  { intros (c & f & b) Hx. cbn. by apply (file_list_elem R o1 o2). }
  destruct (write_files_ok hash R L HS) with (s := wst_init) (ol := @nil nat) (ob := @nil nat) (done := @nil (bytes * (bytes * nat))) as (w & ol & ob & Ew & HW).
  { intros x Hx. eapply blame_at_bound; [done|]. apply HL. exact Hx. }
  { apply winv_init. }
  cbn [app] in HW. exists w. split; [exact Ew|]. exists ol, ob. split; [exact HW|].
  pose proof (w_l _ _ _ _ _ _ HW) as HLi.
  assert (Hused : forall q l, q ∈ ol -> pr_lines R !! q = Some l -> used_line R l).
  { intros q l Hq Hl. destruct (w_from_l _ _ _ _ _ _ HW q Hq) as (b & bl & Hb & Hbl & Hin).
    destruct (w_from_b _ _ _ _ _ _ HW b Hb) as (c & f & Hcf). apply elem_of_list_lookup in Hin as [i Hi].
    exists c, f, i, q. split; [|done]. unfold line_at. apply HL in Hcf. cbn in Hcf. rewrite Hcf. cbn. by rewrite Hbl. }
  unfold read_records. unfold read_ldata, stream_end. cbn [fst snd]. set (m1 := foldl _ _ _). cbn [obind].
  assert (Hm1 : forall q l, q ∈ ol -> pr_lines R !! q = Some l -> exists q' l', q' ∈ ol /\ pr_lines R !! q' = Some l' /\
            hash (l_data l') = hash (l_data l) /\ m1 !! hash (l_data l) = Some (l_data l')).
  { intros q l Hq Hl. pose proof (l_cover _ _ _ _ HLi q l Hq Hl) as Hc. apply (l_hashes _ _ _ _ HLi) in Hc.
    destruct (read_ldata_elem _ ∅ _ Hc) as (d & Hd & Hp & Em). destruct (l_data_from _ _ _ _ HLi d Hd) as (q' & l' & ? & ? & ->).
    cbn in *. exists q', l'. split_and!; done. }
  assert (Hll : forall i d, ls_lines (ws_l w) !! i = Some d -> exists q l, ol !! i = Some q /\ pr_lines R !! q = Some l /\ d = DLine (pos i) (l_commit l) (hash (l_data l))).
  { intros i d Hi. destruct (lookup_lt_is_Some_2 ol i) as [q Hq]; [rewrite <-(l_len _ _ _ _ HLi); by eapply lookup_lt_Some|].
    destruct (l_lines _ _ _ _ HLi i q Hq) as (l & Hl & E). exists q, l. split_and!; [done|done|congruence]. }
  unfold read_lines. cbn [fst snd].
  destruct (read_lines_ok m1 (ls_lines (ws_l w))) as (mp & hp & -> & Hhp & Hmp & Hhpv).
  { intros i d Hi. destruct (Hll i d Hi) as (q & l & Hq & Hl & ->). split; [done|]. cbn.
    destruct (Hm1 q l) as (q' & l' & _ & _ & _ & E); [by eapply elem_of_list_lookup_2|done|]. by rewrite E. }
  unfold stream_end. cbn [obind fst snd].
  assert (Hbb : forall i d, ws_blames w !! i = Some d -> exists b bl ns, ob !! i = Some b /\ pr_blames R !! b = Some bl /\ d = DBlame (pos i) (pb_commit bl) ns (pb_binary bl)
            /\ Forall2 (fun q n => ls_ptrs (ws_l w) !! q = Some n) (pb_lines bl) ns).
  { intros i d Hi. destruct (lookup_lt_is_Some_2 ob i) as [b Hb]; [rewrite <-(w_len _ _ _ _ _ _ HW); by eapply lookup_lt_Some|].
    destruct (w_blames _ _ _ _ _ _ HW i b Hb) as (bl & ns & Hbl & E & HF). exists b, bl, ns. split_and!; [done|done|congruence|done]. }
  unfold read_blames. cbn [fst snd].
  destruct (read_blames_ok mp (ws_blames w)) as (mb & hb & -> & Hhb & Hmb & Hhbv).
  { intros i d Hi. destruct (Hbb i d Hi) as (b & bl & ns & Hb & Hbl & -> & HF). split; [done|]. cbn. intros n Hn.
    apply elem_of_list_lookup in Hn as [k Hk]. destruct (Forall2_lookup_r _ _ _ _ _ HF Hk) as (q & _ & Hq).
    apply (l_ptrs _ _ _ _ HLi) in Hq as (j & Hj & ->). exists j. apply Hmp. split; [done|]. rewrite (l_len _ _ _ _ HLi). by eapply lookup_lt_Some. }
  unfold stream_end. cbn [obind fst snd].
  assert (Hrow : forall d, d ∈ ws_rows w -> exists x i, x ∈ L /\ ob !! i = Some x.2.2 /\ d = DRow x.1 x.2.1 (pos i)).
  { intros d Hd. apply elem_of_list_lookup in Hd as [k Hk]. destruct (Forall2_lookup_r _ _ _ _ _ (w_rows _ _ _ _ _ _ HW) Hk) as (x & Hx & n & Hn & ->).
    apply (w_ptrs _ _ _ _ _ _ HW) in Hn as (i & Hi & ->). exists x, i. split_and!; [by eapply elem_of_list_lookup_2|done|done]. }
  assert (Hrow' : forall x, x ∈ L -> exists i, ob !! i = Some x.2.2 /\ DRow x.1 x.2.1 (pos i) ∈ ws_rows w).
  { intros x Hx. apply elem_of_list_lookup in Hx as [k Hk]. destruct (Forall2_lookup_l _ _ _ _ _ (w_rows _ _ _ _ _ _ HW) Hk) as (r & Hr & n & Hn & ->).
    apply (w_ptrs _ _ _ _ _ _ HW) in Hn as (i & Hi & ->). exists i. split; [done|by eapply elem_of_list_lookup_2]. }
  assert (Hlt : forall i b, ob !! i = Some b -> i < length (ws_blames w)).
  { intros i b Hi. rewrite (w_len _ _ _ _ _ _ HW). by eapply lookup_lt_Some. }
  unfold read_rows. cbn [fst snd].
  destruct (read_rows_ok mb (ws_rows w)) as (fs & -> & Hfs & Hks).
  { intros d Hd. destruct (Hrow d Hd) as (x & i & _ & Hi & ->). exists i. apply Hmb. split; [done|by eapply Hlt]. }
  { intros d d' Hd Hd'. destruct (Hrow d Hd) as (x & i & Hx & Hi & ->). destruct (Hrow d' Hd') as (x' & i' & Hx' & Hi' & ->). cbn. intros Ec Ef.
    pose proof (HL _ Hx) as Gx. pose proof (HL _ Hx') as Gx'. rewrite Ec, Ef, Gx' in Gx. clear Hx. rename Gx into Hx. injection Hx as E. rewrite <-E in Hi. apply (f_equal pos).
    eapply NoDup_lookup; [exact (w_nodup _ _ _ _ _ _ HW)|done|done]. }
  unfold stream_end. cbn [obind fst snd]. eexists. split; [reflexivity|].
  split; cbn [pr_files pr_blames pr_lines].
  - done.
  - apply (w_nodup _ _ _ _ _ _ HW).
  - apply (l_nodup _ _ _ _ HLi).
  - intros c f i. unfold blame_at at 1. cbn [pr_files]. rewrite Hfs. split.
    + intros (d & Hd & <- & <- & Em). destruct (Hrow d Hd) as (x & i' & Hx & Hi & ->). cbn in *. apply Hmb in Em as [E _]. apply pos_inj in E as ->.
      exists x.2.2. split; [by apply HL|done].
    + intros (b & Hb & Hi). apply (file_list_elem R o1 o2) in Hb; [|done|done]. destruct (Hrow' _ Hb) as (i' & Hi' & Hin). cbn in *.
      eexists. split; [exact Hin|]. cbn. split; [done|]. split; [done|]. apply Hmb.
      assert (i' = i) as -> by (eapply NoDup_lookup; [exact (w_nodup _ _ _ _ _ _ HW)|done|done]). split; [done|by eapply Hlt].
  - intros c. rewrite Hks. split.
    + intros (d & Hd & <-). destruct (Hrow d Hd) as (x & i & Hx & _ & ->). cbn. exists x.2.1. rewrite (HL x Hx). by eexists.
    + intros (f & b & Hb). apply (file_list_elem R o1 o2) in Hb; [|done|done]. destruct (Hrow' _ Hb) as (i' & Hi' & Hin). eexists. split; [exact Hin|done].
  - intros c f b Hb. apply (file_list_elem R o1 o2) in Hb; [|done|done]. destruct (Hrow' _ Hb) as (i' & Hi' & Hin). by eapply elem_of_list_lookup_2.
  - intros i b Hi. destruct (w_blames _ _ _ _ _ _ HW i b Hi) as (bl & ns & Hbl & E & HF). destruct (Hhbv i _ E) as (ls & HF' & Eh). cbn in *.
    exists bl, ls. split; [done|]. split; [|done]. clear -HF HF' Hmp HLi. revert ls HF'. induction HF as [|q n qs ns Hqn _ IH]; intros ls HF'; inversion HF' as [|? j ? ls' Hj Hls']; subst; constructor.
    + apply (l_ptrs _ _ _ _ HLi) in Hqn as (j' & Hj' & ->). apply Hmp in Hj as [E _]. apply pos_inj in E as ->. done.
    + by apply IH.
  - intros j q Hj. destruct (l_lines _ _ _ _ HLi j q Hj) as (l & Hl & E). pose proof (elem_of_list_lookup_2 _ _ _ Hj) as Hq.
    destruct (Hm1 q l Hq Hl) as (q' & l' & Hq' & Hl' & Eh & Em).
    exists l, (l_data l'). split; [done|]. split; [by apply (Hhpv j _ _ E)|]. split; [done|]. exists l'. split; [by eapply Hused|done].
  - intros j j' q q' l l' v v' Hj Hj' Hl Hl' Eh Hv Hv'.
    destruct (l_lines _ _ _ _ HLi j q Hj) as (l0 & Hl0 & E). rewrite Hl in Hl0. injection Hl0 as <-.
    destruct (l_lines _ _ _ _ HLi j' q' Hj') as (l0 & Hl0 & E'). rewrite Hl' in Hl0. injection Hl0 as <-.
    destruct (Hm1 q l ltac:(by eapply elem_of_list_lookup_2) Hl) as (q1 & l1 & _ & _ & _ & Em).
    pose proof (Hhpv j _ _ E Em) as Hr. rewrite Eh in Em. pose proof (Hhpv j' _ _ E' Em) as Hr'. rewrite Hr in Hv. rewrite Hr' in Hv'.
    injection Hv as <-. injection Hv' as <-. done.
  - rewrite Hhb. apply (w_len _ _ _ _ _ _ HW).
  - rewrite Hhp. apply (l_len _ _ _ _ HLi).
  - exact Hused.
Qed.

Section iso.
  Context (hash : bytes -> N) (R R' : prepo) (ob ol : list nat) (I : iso hash R R' ob ol).

  Lemma iso_none c f : blame_at R' c f = None <-> blame_at R c f = None.
  Proof.
    split; intros E.
    - destruct (blame_at R c f) as [b|] eqn:Eb; [|done]. pose proof (i_cover _ _ _ _ _ I c f b Eb) as Hb. apply elem_of_list_lookup in Hb as [i Hi].
      assert (blame_at R' c f = Some i) as E'; [apply (i_at _ _ _ _ _ I); eauto|congruence].
    - destruct (blame_at R' c f) as [i|] eqn:Ei; [|done]. apply (i_at _ _ _ _ _ I) in Ei as (b & Hb & _). congruence.
  Qed.
  Lemma iso_blame_share c f c' f' : blame_at R' c f = blame_at R' c' f' <-> blame_at R c f = blame_at R c' f'.
  Proof.
    destruct (blame_at R' c f) as [i|] eqn:E.
    - apply (i_at _ _ _ _ _ I) in E as (b & Hb & Hi). rewrite Hb. split.
      + intros E. symmetry in E. apply (i_at _ _ _ _ _ I) in E as (b' & Hb' & Hi'). rewrite Hb'. congruence.
      + intros E. symmetry. apply (i_at _ _ _ _ _ I). eauto.
    - apply iso_none in E. rewrite E. split; intros E'; symmetry; symmetry in E'; by apply iso_none.
  Qed.
  Lemma iso_line_at c f i j : line_at R' c f i = Some j <-> exists q, line_at R c f i = Some q /\ ol !! j = Some q.
  Proof.
    unfold line_at. split.
    - destruct (blame_at R' c f) as [k|] eqn:E; [|done]. cbn. apply (i_at _ _ _ _ _ I) in E as (b & -> & Hi). cbn.
      destruct (i_blame _ _ _ _ _ I k b Hi) as (bl & ls & -> & HF & ->). cbn. intros Hj.
      destruct (Forall2_lookup_r _ _ _ _ _ HF Hj) as (q & Hq & ?). eauto.
    - intros (q & E & Hj). destruct (blame_at R c f) as [b|] eqn:Eb; [|done]. cbn in E.
      pose proof (i_cover _ _ _ _ _ I c f b Eb) as Hb. apply elem_of_list_lookup in Hb as [k Hk].
      assert (blame_at R' c f = Some k) as ->; [apply (i_at _ _ _ _ _ I); eauto|]. cbn.
      destruct (i_blame _ _ _ _ _ I k b Hk) as (bl & ls & Hbl & HF & ->). rewrite Hbl in E. cbn in *.
      destruct (Forall2_lookup_l _ _ _ _ _ HF E) as (j' & Hj' & Hj''). rewrite Hj'. f_equal. eapply NoDup_lookup; [exact (i_nl _ _ _ _ _ I)|done|done].
  Qed.
  Lemma line_at_none c f i : line_at R' c f i = None <-> line_at R c f i = None.
  Proof.
    split; intros E.
    - destruct (line_at R c f i) as [q|] eqn:Eq; [|done]. exfalso.
      assert (exists j, ol !! j = Some q) as [j Hj].
      { unfold line_at in Eq. destruct (blame_at R c f) as [b|] eqn:Eb; [|done]. cbn in Eq.
        pose proof (i_cover _ _ _ _ _ I c f b Eb) as Hb. apply elem_of_list_lookup in Hb as [k Hk].
        destruct (i_blame _ _ _ _ _ I k b Hk) as (bl & ls & Hbl & HF & _). rewrite Hbl in Eq. cbn in Eq.
        destruct (Forall2_lookup_l _ _ _ _ _ HF Eq) as (j' & ? & ?). eauto. }
      assert (line_at R' c f i = Some j); [apply iso_line_at; eauto|congruence].
    - destruct (line_at R' c f i) as [j|] eqn:Ei; [|done]. apply iso_line_at in Ei as (b & Hb & _). congruence.
  Qed.
  Lemma iso_line_share c f i c' f' i' : line_at R' c f i = line_at R' c' f' i' <-> line_at R c f i = line_at R c' f' i'.
  Proof.
    destruct (line_at R' c f i) as [j|] eqn:E.
    - apply iso_line_at in E as (b & Hb & Hi). rewrite Hb. split.
      + intros E. symmetry in E. apply iso_line_at in E as (b' & Hb' & Hi'). rewrite Hb'. congruence.
      + intros E. symmetry. apply iso_line_at. eauto.
    - apply line_at_none in E. rewrite E. split; intros E'; symmetry; symmetry in E'; by apply line_at_none.
  Qed.

  Lemma iso_sound : sound R'.
  Proof.
    split.
    - intros c fs f i Ec Ef. assert (blame_at R' c f = Some i) as E by (unfold blame_at; rewrite Ec; exact Ef).
      apply (i_at _ _ _ _ _ I) in E as (b & Hb & Hi). destruct (i_blame _ _ _ _ _ I i b Hi) as (bl & ls & _ & _ & E'). by eapply lookup_lt_Some.
    - intros i bl' j Hi Hj. rewrite (i_lenl _ _ _ _ _ I). pose proof (lookup_lt_Some _ _ _ Hi) as Hlt. rewrite (i_lenb _ _ _ _ _ I) in Hlt.
      apply lookup_lt_is_Some in Hlt as [b Hb]. destruct (i_blame _ _ _ _ _ I i b Hb) as (bl & ls & _ & HF & E). rewrite Hi in E. injection E as ->. cbn in Hj.
      apply elem_of_list_lookup in Hj as [k Hk]. destruct (Forall2_lookup_r _ _ _ _ _ HF Hk) as (q & _ & Hq). by eapply lookup_lt_Some.
  Qed.

  Lemma iso_value i b : no_collision hash R -> ob !! i = Some b -> blame_value R' i = blame_value R b.
  Proof.
    intros HN Hi. unfold blame_value. destruct (i_blame _ _ _ _ _ I i b Hi) as (bl & ls & -> & HF & ->). cbn.
    assert (mapM (fun q => pr_lines R' !! q) ls = mapM (fun q => pr_lines R !! q) (pb_lines bl)) as E; [|by rewrite E].
    clear Hi. induction HF as [|q j qs js Hj _ IH]; [done|]. cbn. rewrite IH.
    destruct (i_line _ _ _ _ _ I j q Hj) as (l & v & Hl & -> & Eh & l' & Hu & ->). rewrite Hl.
    assert (Line (l_data l') (l_commit l) = l) as ->; [|done].
    destruct l as [d c]. cbn in *. f_equal. apply (HN l' (Line d c)); [done| |done]. eapply (i_used _ _ _ _ _ I); [by eapply elem_of_list_lookup_2|done].
  Qed.
  Lemma iso_values : no_collision hash R -> values R' = with_files (values R).
  Proof.
    intros HN. apply map_eq. intros c. apply option_eq. intros m. unfold with_files. rewrite map_filter_lookup_Some. cbn.
    unfold values. rewrite !lookup_fmap.
    assert (Hb : forall f b, blame_at R c f = Some b -> is_Some (blame_value R b)).
    { intros f b Hb. unfold blame_value. pose proof (blame_at_bound _ _ _ _ (i_sound _ _ _ _ _ I) Hb) as Hlt. apply lookup_lt_is_Some in Hlt as [bl Hbl]. rewrite Hbl. cbn.
      assert (is_Some (mapM (fun q => pr_lines R !! q) (pb_lines bl))) as [ls ->]; [|by eexists].
      apply mapM_is_Some, Forall_forall. intros q Hq. apply lookup_lt_is_Some. by eapply (proj2 (i_sound _ _ _ _ _ I)). }
    assert (Hval : forall fs fs', pr_files R !! c = Some fs -> pr_files R' !! c = Some fs' -> omap (blame_value R') fs' = omap (blame_value R) fs).
    { intros fs fs' Ec Ec'. apply map_eq. intros f. rewrite !lookup_omap.
      pose proof (iso_none c f) as Hn. pose proof (i_at _ _ _ _ _ I c f) as Hat. unfold blame_at in Hn, Hat. rewrite Ec, Ec' in Hn. rewrite Ec, Ec' in Hat. cbn in Hn, Hat.
      destruct (fs' !! f) as [i|] eqn:Ei.
      - destruct (proj1 (Hat i) eq_refl) as (b & -> & Hib). cbn. by apply iso_value.
      - by rewrite (proj1 Hn eq_refl). }
    destruct (pr_files R' !! c) as [fs'|] eqn:Ec'.
    - assert (is_Some (pr_files R' !! c)) as Hk by (by eexists). apply (i_known _ _ _ _ _ I) in Hk as (f & b & Hfb). pose proof Hfb as Hfb'. unfold blame_at in Hfb.
      destruct (pr_files R !! c) as [fs|] eqn:Ec; [|done]. cbn in Hfb. cbn. rewrite (Hval fs fs' eq_refl eq_refl). split.
      + intros [= <-]. split; [done|]. intros E. destruct (Hb f b Hfb') as [v Hv].
        assert (omap (blame_value R) fs !! f = Some v) as E'; [rewrite lookup_omap, Hfb; exact Hv|]. rewrite E, lookup_empty in E'. done.
      + by intros [[= <-] _].
    - cbn. split; [done|]. intros [E Hne]. exfalso. destruct (pr_files R !! c) as [fs|] eqn:Ec; [|done]. cbn in E. injection E as <-.
      apply map_choose in Hne as (f & v & Hf). rewrite lookup_omap in Hf. destruct (fs !! f) as [b|] eqn:Eb; [|done].
      assert (is_Some (pr_files R' !! c)) as [? ?]; [|congruence]. apply (i_known _ _ _ _ _ I). exists f. unfold blame_at. rewrite Ec. cbn. by eexists.
  Qed.
  Lemma iso_restored : no_collision hash R -> restored R R'.
  Proof. intros HN. split; [by apply iso_values|]. split; [exact iso_blame_share|exact iso_line_share]. Qed.
End iso.
