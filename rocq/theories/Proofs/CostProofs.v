(** * Work on the commit graph: proofs for C92, C93 *)
From Verif.Model Require Import Base GoStrings GoSort ParentsGraph Branches HistoryGraph Cost.
From Verif.Spec Require Import CommitGraph Work.
From Coq Require Import Lia.

Definition total (f : bytes -> nat) (l : list bytes) : nat := sum_list (map f l).
Lemma total_app f l1 l2 : total f (l1 ++ l2) = total f l1 + total f l2.
Proof. induction l1 as [|x l1 IH]; [done|]. unfold total in *. cbn [app map sum_list]. rewrite IH. lia. Qed.
Lemma total_mono f g l : (forall x, x ∈ l -> f x <= g x) -> total f l <= total g l.
Proof.
  induction l as [|x l IH]; intros H; [done|]. pose proof (H x ltac:(left)) as H1.
  assert (total f l <= total g l) by (apply IH; intros y Hy; apply H; by right). change (f x + total f l <= g x + total g l). lia.
Qed.
Lemma links_delete (g : graph) x ps : g !! x = Some ps -> links g = length ps + links (delete x g).
Proof.
  intros E. unfold links. rewrite <- (insert_delete g x ps E) at 1.
  rewrite (Permutation_map (fun e : bytes * list bytes => length e.2) (map_to_list_insert (delete x g) x ps ltac:(apply lookup_delete))). done.
Qed.
Lemma total_links (l : list bytes) : forall g : graph, NoDup l -> total (fun h => length (gparents g h)) l <= links g.
Proof.
  induction l as [|x l IH]; intros g Hn; [unfold total; cbn; lia|]. apply NoDup_cons in Hn as [Hx Hn].
  change (length (gparents g x) + total (fun h => length (gparents g h)) l <= links g). unfold gparents at 1. destruct (g !! x) as [ps|] eqn:E; cbn [default from_option id].
  - rewrite (links_delete g x ps E). specialize (IH (delete x g) Hn).
    assert (total (fun h => length (gparents g h)) l <= total (fun h => length (gparents (delete x g) h)) l); [|lia].
    apply total_mono. intros y Hy. unfold gparents. rewrite lookup_delete_ne; [done|]. intros ->. done.
  - specialize (IH g Hn). cbn [length]. lia.
Qed.

Lemma dfs_counts next fuel : forall acc n h acc', dfs fuel next acc h = Ret acc' ->
  exists new, acc' = new ++ acc /\ NoDup new /\ (forall x, x ∈ new -> x ∉ acc) /\
    dfs_c fuel next (acc, n) h = Ret (acc', S n + total (fun x => length (default [] (next x))) new).
Proof.
  induction fuel as [|f IH]; intros acc n h acc'; cbn [dfs dfs_c]; destruct (decide (h ∈ acc)) as [Hin|Hin].
  1,3: intros [= <-]; exists []; split; [done|]; split; [apply NoDup_nil_2|]; split; [intros x Hx; by apply elem_of_nil in Hx|]; unfold total; cbn; do 2 f_equal; lia.
  - done.
  - destruct (next h) as [ps|] eqn:En; [|done]. intros Hf.
    assert (K : forall ps acc n acc', ofold (dfs f next) acc ps = Ret acc' -> exists new, acc' = new ++ acc /\ NoDup new /\ (forall x, x ∈ new -> x ∉ acc) /\
      ofold (dfs_c f next) (acc, n) ps = Ret (acc', n + length ps + total (fun x => length (default [] (next x))) new)).
    { clear -IH. induction ps as [|p ps IHp]; intros acc n acc'; cbn [ofold].
      - intros [= <-]. exists []. split; [done|]. split; [apply NoDup_nil_2|]. split; [intros x Hx; by apply elem_of_nil in Hx|]. unfold total. cbn. do 2 f_equal. lia.
      - destruct (dfs f next acc p) as [a1| |] eqn:E1; cbn [obind]; try done. intros H2.
        destruct (IH acc n p a1 E1) as (new1 & -> & N1 & D1 & C1). destruct (IHp (new1 ++ acc) (S n + total (fun x => length (default [] (next x))) new1) acc' H2) as (new2 & -> & N2 & D2 & C2).
        exists (new2 ++ new1). rewrite C1. cbn [obind]. rewrite C2. split; [by rewrite app_assoc|]. split.
        { apply NoDup_app. split; [exact N2|]. split; [|exact N1]. intros x Hx Hx1. apply (D2 x Hx). apply elem_of_app. by left. }
        split. { intros x [Hx|Hx]%elem_of_app; [|by apply D1]. intros Ha. apply (D2 x Hx). apply elem_of_app. by right. }
        rewrite total_app. do 2 f_equal. cbn [length]. lia. }
    destruct (K ps (h :: acc) (S n) acc' Hf) as (new & -> & N & D & C). exists (new ++ [h]). split; [by rewrite <- app_assoc|]. split.
    { apply NoDup_app. split; [exact N|]. split; [|apply NoDup_singleton]. intros x Hx ->%elem_of_list_singleton. apply (D h Hx). left. }
    split. { intros x [Hx|Hx]%elem_of_app; [intros Ha; apply (D x Hx); by right|]. apply elem_of_list_singleton in Hx as ->. exact Hin. }
    rewrite C, total_app. unfold total at 3. cbn [map sum_list]. rewrite En. cbn [default from_option id]. do 2 f_equal. unfold total. lia.
Qed.
(** From nothing marked. *)
Corollary dfs_bound (g : graph) next fuel n h acc' : dfs fuel next [] h = Ret acc' -> (forall x, length (default [] (next x)) <= length (gparents g x)) ->
  exists k, dfs_c fuel next ([], n) h = Ret (acc', n + k) /\ k <= 1 + links g.
Proof.
  intros Hd Hl. destruct (dfs_counts next fuel [] n h acc' Hd) as (new & _ & N & _ & C). exists (1 + total (fun x => length (default [] (next x))) new). split; [rewrite C; do 2 f_equal; lia|].
  pose proof (total_links new g N) as Ht. pose proof (total_mono (fun x => length (default [] (next x))) (fun h => length (gparents g h)) new ltac:(intros x _; apply Hl)). lia.
Qed.

Lemma has_deep_counts g cs fuel : forall st n h st' r, has_deep fuel g cs st h = Ret (st', r) ->
  exists new, NoDup new /\ (forall x, x ∈ new -> st !! x = None) /\ (forall x, is_Some (st' !! x) <-> x ∈ new \/ is_Some (st !! x)) /\
    has_deep_c fuel g cs (st, n) h = Ret (st', S n + total (fun x => length (gparents g x)) new, r).
Proof.
  induction fuel as [|f IH]; intros st n h st' r; cbn [has_deep has_deep_c]; destruct (st !! h) as [r0|] eqn:E.
  1,3: intros [= <- <-]; exists []; split; [apply NoDup_nil_2|]; split; [intros x Hx; by apply elem_of_nil in Hx|]; split; [intros x; rewrite elem_of_nil; tauto|]; unfold total; cbn; do 3 f_equal; lia.
  - done.
  - intros Hf.
    assert (K : forall ps st n b st' r, ofold (fun (a : gmap bytes bool * bool) p => do x <- has_deep f g cs a.1 p; Ret (x.1, a.2 || x.2)) (st, b) ps = Ret (st', r) ->
      exists new, NoDup new /\ (forall x, x ∈ new -> st !! x = None) /\ (forall x, is_Some (st' !! x) <-> x ∈ new \/ is_Some (st !! x)) /\
        ofold (fun (a : gmap bytes bool * nat * bool) p => do x <- has_deep_c f g cs a.1 p; Ret (x.1, a.2 || x.2)) (st, n, b) ps = Ret (st', n + length ps + total (fun x => length (gparents g x)) new, r)).
    { clear -IH. induction ps as [|p ps IHp]; intros st n b st' r; cbn [ofold].
      - intros [= <- <-]. exists []. split; [apply NoDup_nil_2|]. split; [intros x Hx; by apply elem_of_nil in Hx|]. split; [intros x; rewrite elem_of_nil; tauto|]. unfold total. cbn. do 3 f_equal. lia.
      - cbn [fst snd]. destruct (has_deep f g cs st p) as [[s1 r1]| |] eqn:E1; cbn [obind]; try done. cbn [fst snd]. intros H2.
        destruct (IH st n p s1 r1 E1) as (new1 & N1 & D1 & M1 & C1). destruct (IHp s1 (S n + total (fun x => length (gparents g x)) new1) (b || r1) st' r H2) as (new2 & N2 & D2 & M2 & C2).
        exists (new2 ++ new1). rewrite C1. cbn [obind fst snd]. rewrite C2. split.
        { apply NoDup_app. split; [exact N2|]. split; [|exact N1]. intros x Hx Hx1. assert (Hs : is_Some (s1 !! x)) by (apply M1; by left). rewrite (D2 x Hx) in Hs. by destruct Hs. }
        split. { intros x [Hx|Hx]%elem_of_app; [|by apply D1]. destruct (st !! x) as [y|] eqn:Ex; [|done]. assert (Hs : is_Some (s1 !! x)) by (apply M1; right; by rewrite Ex). rewrite (D2 x Hx) in Hs. by destruct Hs. }
        split. { intros x. rewrite M2, M1, elem_of_app. tauto. }
        rewrite total_app. do 3 f_equal. cbn [length]. lia. }
    destruct (ofold _ (<[h:=false]> st, bool_decide (h ∈ cs)) (gparents g h)) as [[s2 r2]| |] eqn:E2; cbn [obind fst snd] in Hf; try done. injection Hf as <- <-.
    destruct (K _ _ (S n) _ _ _ E2) as (new & N & D & M & C). rewrite C. cbn [obind fst snd].
    exists (new ++ [h]). split.
    { apply NoDup_app. split; [exact N|]. split; [|apply NoDup_singleton]. intros x Hx ->%elem_of_list_singleton. specialize (D h Hx). by rewrite lookup_insert in D. }
    split. { intros x [Hx|Hx]%elem_of_app; [|by apply elem_of_list_singleton in Hx as ->]. specialize (D x Hx). destruct (decide (x = h)) as [->|Hn]; [exact E|]. by rewrite lookup_insert_ne in D. }
    split. { intros x. rewrite elem_of_app, elem_of_list_singleton. destruct (decide (x = h)) as [->|Hn]; [rewrite lookup_insert; split; [intros _; left; by right|by eexists]|].
      rewrite lookup_insert_ne by done. rewrite M, lookup_insert_ne by done. tauto. }
    assert (Hh : total (fun x => length (gparents g x)) [h] = length (gparents g h)) by (unfold total; cbn; lia). rewrite total_app, Hh. do 3 f_equal. lia.
Qed.
Lemma dedup_counts rng g commits head n r : dedup_linear rng g commits head = Ret r -> exists k, dedup_linear_c rng g commits head n = Ret (r, n + k) /\ k <= 1 + links g.
Proof.
  unfold dedup_linear, dedup_linear_c. destruct (has_deep _ _ _ _ _) as [[st b]| |] eqn:E; cbn [obind]; try done. intros [= <-].
  destruct (has_deep_counts _ _ _ _ n _ _ _ E) as (new & N & _ & _ & C). rewrite C. cbn [obind fst snd].
  exists (1 + total (fun x => length (gparents g x)) new). split; [do 2 f_equal; lia|]. pose proof (total_links new g N). lia.
Qed.
Lemma filter_length_le (P : bytes -> Prop) `{forall x, Decision (P x)} (l : list bytes) : length (filter P l) <= length l.
Proof. induction l as [|x l IH]; [done|]. rewrite filter_cons. destruct (decide (P x)); cbn [length]; lia. Qed.
Lemma branch_commits_counts rng g d R b n r : branch_commits rng g d R b = Ret r -> exists k, branch_commits_c rng g d R b n = Ret (r, n + k) /\ k <= 3 + 3 * links g.
Proof.
  unfold branch_commits, branch_commits_c. intros Hr.
  assert (K : exists R' k1, (if decide (b ∈ R) then dfs (graph_fuel g) (fun h => if decide (h = b) then Some [] else g !! h) [] d else Ret R) = Ret R' /\
    (if decide (b ∈ R) then dfs_c (graph_fuel g) (fun h => if decide (h = b) then Some [] else g !! h) ([], n) d else Ret (R, n)) = Ret (R', n + k1) /\ k1 <= 1 + links g).
  { destruct (decide (b ∈ R)).
    - destruct (dfs _ _ _ _) as [R'| |] eqn:E; cbn [obind] in Hr; try done. destruct (dfs_bound g _ _ n _ _ E) as (k1 & C1 & L1).
      + intros x. unfold gparents. destruct (decide (x = b)); [cbn; lia|]. by destruct (g !! x).
      + by exists R', k1.
    - exists R, 0. split; [done|]. split; [do 2 f_equal; lia|lia]. }
  destruct K as (R' & k1 & E1 & C1 & L1). rewrite E1 in Hr. rewrite C1. cbn [obind fst snd] in *.
  destruct (dfs _ _ _ b) as [commits| |] eqn:E2; cbn [obind] in Hr; try done. destruct (dfs_bound g _ _ (n + k1) _ _ E2) as (k2 & C2 & L2).
  { intros x. unfold gparents. destruct (g !! x) as [ps|]; cbn; [|lia]. etransitivity; [apply filter_length_le|]. by rewrite rev_length. }
  rewrite C2. cbn [obind fst snd]. destruct (dedup_linear _ _ _ _) as [bf| |] eqn:E3; cbn [obind] in Hr; try done. injection Hr as <-.
  destruct (dedup_counts _ _ _ _ (n + k1 + k2) _ E3) as (k3 & C3 & L3). rewrite C3. cbn [obind fst snd]. exists (k1 + k2 + k3). split; [do 2 f_equal; lia|lia].
Qed.
Lemma behind_counts g R b d n r : behind_branch g R b d = Ret r -> exists k, behind_branch_c g R b d n = Ret (r, n + k) /\ k <= 2 + 2 * links g.
Proof.
  unfold behind_branch, behind_branch_c, reachable_stop. destruct (dfs _ _ _ b) as [rfb| |] eqn:E1; cbn [obind]; try done.
  destruct (dfs_bound g _ _ n _ _ E1) as (k1 & C1 & L1); [intros x; destruct (decide (x ∈ R)); cbn; lia|]. rewrite C1. cbn [obind fst snd].
  destruct (dfs _ _ _ d) as [dn| |] eqn:E2; cbn [obind]; try done. intros [= <-].
  destruct (dfs_bound g _ _ (n + k1) _ _ E2) as (k2 & C2 & L2); [intros x; destruct (decide (x ∈ rfb)); cbn; lia|]. rewrite C2. cbn [obind fst snd].
  exists (k1 + k2). split; [do 2 f_equal; lia|lia].
Qed.
Lemma process_branch_counts rng sha g ch d R name head n r : process_branch rng sha g ch d R name head = Ret r ->
  exists k, process_branch_c rng sha g ch d R name head n = Ret (r, n + k) /\ k <= 5 + 5 * links g.
Proof.
  unfold process_branch, process_branch_c. destruct (_ && _). { intros [= <-]. exists 0. split; [do 2 f_equal; lia|lia]. }
  destruct (branch_commits _ _ _ _ _) as [[commits from]| |] eqn:E1; cbn [obind]; try done. destruct (branch_commits_counts _ _ _ _ _ n _ E1) as (k1 & C1 & L1). rewrite C1. cbn [obind].
  destruct (decide (head ∈ R)).
  - destruct (get_merge_commit _ _ _) as [mc| |]; cbn [obind]; try done. destruct commits as [|c0 commits]; [done|]. intros [= <-]. exists k1. split; [done|lia].
  - destruct from as [|f0 from].
    + cbn [obind]. destruct commits as [|c0 commits]; [done|]. intros [= <-]. exists k1. split; [done|lia].
    + destruct (behind_branch _ _ _ _) as [bh| |] eqn:E2; cbn [obind]; try done. destruct (behind_counts _ _ _ _ (n + k1) _ E2) as (k2 & C2 & L2). rewrite C2. cbn [obind fst snd].
      destruct commits as [|c0 commits]; [done|]. intros [= <-]. exists (k1 + k2). split; [do 2 f_equal; lia|lia].
Qed.
Lemma branch_info_counts rng sha g ch d name head r : branch_info rng sha g ch d name head = Ret r ->
  exists k, branch_info_c rng sha g ch d name head = Ret (r, k) /\ k <= 6 + 6 * links g.
Proof.
  unfold branch_info, branch_info_c, reachable_from_head. destruct (dfs _ _ _ d) as [R| |] eqn:E; cbn [obind]; try done. intros Hr.
  destruct (dfs_bound g _ _ 0 _ _ E) as (k1 & C1 & L1); [done|]. rewrite C1. cbn [obind fst snd].
  destruct (process_branch_counts _ _ _ _ _ _ _ _ (0 + k1) _ Hr) as (k2 & C2 & L2). exists (0 + k1 + k2). split; [exact C2|lia].
Qed.
Lemma all_commits_counts g head r : get_all_commits g head = Ret r -> exists k, get_all_commits_c g head = Ret (r, k) /\ k <= 1 + links g.
Proof.
  intros E. destruct (dfs_bound g _ _ 0 _ _ E) as (k & C & L); [|by exists k]. intros x. unfold gparents. destruct (g !! x) as [ps|]; cbn; [by rewrite rev_length|lia].
Qed.

(** ** LastCommonParent *)
Lemma lcp_level_same g n curr : forall reached ntr k, (lcp_level_c g n reached curr ntr k).1 = lcp_level g n reached curr ntr.
Proof.
  induction curr as [|tr r IH]; intros reached ntr k; cbn [lcp_level lcp_level_c]; [done|]. destruct (mark_reach n reached tr) as [reached' []]; [done|]. apply IH.
Qed.
Lemma lcp_loop_same g n fuel : forall reached curr k, (lcp_loop_c fuel g n reached curr k).1 = lcp_loop fuel g n reached curr.
Proof.
  induction fuel as [|f IH]; intros reached curr k; cbn [lcp_loop lcp_loop_c]; [done|].
  rewrite <- (lcp_level_same g n curr reached [] k). destruct (lcp_level_c g n reached curr [] k) as [[c|[reached' [|t ntr]]] k']; cbn [fst]; [done|done|apply IH].
Qed.
Lemma lcp_same g fuel heads : (last_common_parent_c fuel g heads).1 = last_common_parent fuel g heads.
Proof. apply lcp_loop_same. Qed.

Lemma letters_length k : length (letters k) = k.
Proof. apply replicate_length. Qed.
Lemma letters_inj i j : letters i = letters j -> i = j.
Proof. intros H%(f_equal length). by rewrite !letters_length in H. Qed.
Lemma top_inj i j : top i = top j -> i = j.
Proof. intros [= H%letters_inj]. lia. Qed.
Lemma left_inj i j : left_of i = left_of j -> i = j.
Proof. intros [= H%letters_inj]. lia. Qed.
Lemma right_inj i j : right_of i = right_of j -> i = j.
Proof. intros [= H%letters_inj]. lia. Qed.

Lemma top_length i : length (top i) = S (2 * i).
Proof. unfold top. cbn [length]. by rewrite letters_length. Qed.
Lemma left_length i : length (left_of i) = S (2 * i + 1).
Proof. unfold left_of. cbn [length]. by rewrite letters_length. Qed.
Lemma right_length i : length (right_of i) = S (2 * i + 1).
Proof. unfold right_of. cbn [length]. by rewrite letters_length. Qed.
Lemma merges_top n i : i <= n -> merges n !! top i = Some (match i with 0 => [] | S j => [left_of j; right_of j] end).
Proof.
  induction n as [|n IH]; intros Hi.
  - assert (i = 0) as -> by lia. apply (lookup_singleton (M := gmap bytes)).
  - cbn [merges]. destruct (decide (i = S n)) as [->|Hn]; [by rewrite lookup_insert|]. rewrite !lookup_insert_ne; [apply IH; lia|discriminate|discriminate|]. intros E%top_inj. lia.
Qed.
Lemma merges_left n i : i < n -> merges n !! left_of i = Some [top i].
Proof.
  induction n as [|n IH]; intros Hi; [lia|]. cbn [merges]. rewrite lookup_insert_ne by discriminate. destruct (decide (i = n)) as [->|Hn]; [by rewrite lookup_insert|].
  rewrite !lookup_insert_ne; [apply IH; lia|discriminate|]. intros E%left_inj. lia.
Qed.
Lemma merges_right n i : i < n -> merges n !! right_of i = Some [top i].
Proof.
  induction n as [|n IH]; intros Hi; [lia|]. cbn [merges]. rewrite lookup_insert_ne by discriminate. rewrite lookup_insert_ne by discriminate.
  destruct (decide (i = n)) as [->|Hn]; [by rewrite lookup_insert|]. rewrite lookup_insert_ne; [apply IH; lia|]. intros E%right_inj. lia.
Qed.
(** What is in it. *)
Lemma merges_all n c ps : merges n !! c = Some ps ->
  (c = top 0 /\ ps = []) \/ exists i, i < n /\ ((c = top (S i) /\ ps = [left_of i; right_of i]) \/ (c = left_of i /\ ps = [top i]) \/ (c = right_of i /\ ps = [top i])).
Proof.
  induction n as [|n IH]; cbn [merges].
  - intros [<- <-]%lookup_singleton_Some. by left.
  - intros [[<- <-]|[_ [[<- <-]|[_ [[<- <-]|[_ H]]%lookup_insert_Some]]%lookup_insert_Some]]%lookup_insert_Some.
    + right. exists n. split; [lia|]. by left.
    + right. exists n. split; [lia|]. right. by left.
    + right. exists n. split; [lia|]. right. by right.
    + destruct (IH H) as [?|(i & Hi & K)]; [by left|]. right. exists i. split; [lia|exact K].
Qed.
Lemma merges_parent n x y : parent (merges n) x y -> length y < length x /\ is_Some (merges n !! y).
Proof.
  unfold parent, parents. destruct (merges n !! x) as [ps|] eqn:E; cbn [default from_option id]; [|by intros H%elem_of_nil].
  destruct (merges_all n x ps E) as [[-> ->]|(i & Hi & [[-> ->]|[[-> ->]|[-> ->]]])]; intros H.
  - by apply elem_of_nil in H.
  - apply elem_of_cons in H as [->|H%elem_of_list_singleton]; [|subst y].
    + split; [rewrite ?top_length, ?left_length, ?right_length; lia|]. rewrite merges_left by done. by eexists.
    + split; [rewrite ?top_length, ?left_length, ?right_length; lia|]. rewrite merges_right by done. by eexists.
  - apply elem_of_list_singleton in H as ->. split; [rewrite ?top_length, ?left_length, ?right_length; lia|]. rewrite merges_top by lia. by eexists.
  - apply elem_of_list_singleton in H as ->. split; [rewrite ?top_length, ?left_length, ?right_length; lia|]. rewrite merges_top by lia. by eexists.
Qed.
Lemma merges_acyclic n : acyclic (merges n).
Proof.
  intros c Hc. assert (K : forall x y, ancestor (merges n) x y -> length y < length x).
  { intros x y H. induction H as [x y H|x y z H _ IH]; [exact (proj1 (merges_parent n x y H))|]. apply (merges_parent n) in H. lia. }
  specialize (K c c Hc). lia.
Qed.
Lemma merges_complete n : complete (merges n).
Proof. intros x y H. exact (proj2 (merges_parent n x y H)). Qed.
Lemma links_insert (g : graph) x ps : g !! x = None -> links (<[ x := ps ]> g) = length ps + links g.
Proof. intros E. unfold links. rewrite (Permutation_map (fun e : bytes * list bytes => length e.2) (map_to_list_insert g x ps E)). done. Qed.
Lemma merges_fresh n i : n < i -> merges n !! top i = None.
Proof.
  intros Hi. destruct (merges n !! top i) as [ps|] eqn:E; [|done]. destruct (merges_all n _ _ E) as [[K%top_inj _]|(j & Hj & [[K%top_inj _]|[[K _]|[K _]]])]; try lia; discriminate.
Qed.
Lemma merges_fresh_l n i : n <= i -> merges n !! left_of i = None.
Proof.
  intros Hi. destruct (merges n !! left_of i) as [ps|] eqn:E; [|done]. destruct (merges_all n _ _ E) as [[K _]|(j & Hj & [[K _]|[[K%left_inj _]|[K _]]])]; try discriminate; lia.
Qed.
Lemma merges_fresh_r n i : n <= i -> merges n !! right_of i = None.
Proof.
  intros Hi. destruct (merges n !! right_of i) as [ps|] eqn:E; [|done]. destruct (merges_all n _ _ E) as [[K _]|(j & Hj & [[K _]|[[K _]|[K%right_inj _]]])]; try discriminate; lia.
Qed.
Lemma merges_size n : size (merges n) = 3 * n + 1 /\ links (merges n) = 4 * n.
Proof.
  induction n as [|n [IH1 IH2]]; cbn [merges].
  - split; [apply map_size_singleton|]. unfold links. by rewrite map_to_list_singleton.
  - assert (F1 : merges n !! right_of n = None) by (apply merges_fresh_r; lia).
    assert (F2 : <[right_of n:=[top n]]> (merges n) !! left_of n = None) by (rewrite lookup_insert_ne by discriminate; apply merges_fresh_l; lia).
    assert (F3 : <[left_of n:=[top n]]> (<[right_of n:=[top n]]> (merges n)) !! top (S n) = None) by (rewrite !lookup_insert_ne by discriminate; apply merges_fresh; lia).
    split.
    + rewrite !map_size_insert_None by done. rewrite IH1. lia.
    + rewrite links_insert by exact F3. rewrite links_insert by exact F2. rewrite links_insert by exact F1. rewrite IH2. cbn [length]. lia.
Qed.

(** *** The search in it *)
(** The second head's only commit is the first commit; nothing else was reached from it. *)
Definition only_zero (reached : gmap bytes (gset nat)) : Prop :=
  reached !! top 0 = Some {[1]} /\ forall y, y <> top 0 -> default ∅ (reached !! y) ⊆ ({[0]} : gset nat).
Lemma mark_one reached c : only_zero reached -> c <> top 0 -> exists reached', mark_reach 2 reached (0, c) = (reached', false) /\ only_zero reached'.
Proof.
  intros [H1 H2] Hc. unfold mark_reach. cbn [fst snd].
  assert (E : {[0]} ∪ default ∅ (reached !! c) = ({[0]} : gset nat)) by (specialize (H2 c Hc); set_solver). rewrite E.
  exists (<[c:={[0]}]> reached). split.
  - reflexivity.
  - split; [by rewrite lookup_insert_ne|]. intros y Hy. destruct (decide (c = y)) as [->|Hn]; [rewrite lookup_insert; cbn; set_solver|]. rewrite lookup_insert_ne by done. by apply H2.
Qed.
Lemma level_one g cs : forall reached ntr k, only_zero reached -> Forall (fun c => c <> top 0) cs ->
  exists reached', lcp_level_c g 2 reached (map (pair 0) cs) ntr k = (inr (reached', ntr ++ map (pair 0) (concat (map (fun c => default [] (g !! c)) cs))), k + length cs) /\ only_zero reached'.
Proof.
  induction cs as [|c cs IH]; intros reached ntr k Hr Hc; cbn [map lcp_level_c].
  - exists reached. split; [|done]. cbn. rewrite app_nil_r. do 2 f_equal. lia.
  - apply Forall_cons in Hc as [Hc1 Hc2]. destruct (mark_one reached c Hr Hc1) as (r1 & -> & Hr1). cbn [fst snd].
    destruct (IH r1 (ntr ++ map (pair 0) (default [] (g !! c))) (S k) Hr1 Hc2) as (r2 & E & Hr2). exists r2. rewrite E. split; [|done].
    cbn [concat]. rewrite map_app, <- app_assoc. f_equal. cbn [length]. lia.
Qed.
Lemma concat_pairs (a b : bytes) m (f : bytes -> list bytes) t : f t = [a; b] -> concat (map f (replicate m t)) = concat (replicate m [a; b]).
Proof. intros E. induction m as [|m IH]; [done|]. cbn [replicate map concat]. by rewrite E, IH. Qed.
Lemma concat_ones (a b t : bytes) m (f : bytes -> list bytes) : f a = [t] -> f b = [t] -> concat (map f (concat (replicate m [a; b]))) = replicate (2 * m) t.
Proof.
  intros Ea Eb. induction m as [|m IH]; [done|]. cbn [replicate concat app map]. rewrite Ea, Eb, IH. replace (2 * S m) with (S (S (2 * m))) by lia. done.
Qed.
Lemma pairs_length {A} (a b : A) m : length (concat (replicate m [a; b])) = 2 * m.
Proof. induction m as [|m IH]; [done|]. cbn [replicate concat app length]. rewrite IH. lia. Qed.
Lemma merges_run n i : i <= n -> forall reached m k fuel, only_zero reached -> 1 <= m -> 2 * i + 1 <= fuel ->
  exists k', lcp_loop_c fuel (merges n) 2 reached (map (pair 0) (replicate m (top i))) k = (Ret (top 0), k') /\ k + m * 2 ^ i + 1 <= k' + m.
Proof.
  induction i as [|i IH]; intros Hi reached m k fuel Hr Hm Hf.
  - destruct fuel as [|f]; [lia|]. destruct m as [|m]; [lia|]. cbn [lcp_loop_c replicate map lcp_level_c].
    unfold mark_reach. cbn [fst snd]. destruct Hr as [Hr1 _]. rewrite Hr1. cbn [default from_option id].
    rewrite bool_decide_eq_true_2 by (rewrite size_union by set_solver; by rewrite !size_singleton).
    exists (S k). split; [done|]. cbn. lia.
  - destruct fuel as [|[|f]]; [lia|lia|]. cbn [lcp_loop_c].
    destruct (level_one (merges n) (replicate m (top (S i))) reached [] k Hr) as (r1 & E1 & Hr1). { apply Forall_replicate. intros K%top_inj. lia. }
    rewrite E1. cbn [app]. rewrite (concat_pairs (left_of i) (right_of i)) by (by rewrite merges_top).
    destruct m as [|m0] eqn:Em; [lia|]. rewrite <- Em.
    destruct (map (pair 0) (concat (replicate m [left_of i; right_of i]))) as [|t0 ts] eqn:Et. { rewrite Em in Et. done. } rewrite <- Et.
    destruct (level_one (merges n) (concat (replicate m [left_of i; right_of i])) r1 [] (k + length (replicate m (top (S i)))) Hr1) as (r2 & E2 & Hr2).
    { clear. induction m as [|m IH]; [constructor|]. cbn. repeat constructor; try discriminate. exact IH. }
    rewrite E2. cbn [app]. rewrite (concat_ones (left_of i) (right_of i) (top i)) by (by rewrite ?merges_left, ?merges_right by lia).
    destruct (IH ltac:(lia) r2 (2 * m) (k + length (replicate m (top (S i))) + length (concat (replicate m [left_of i; right_of i]))) f Hr2 ltac:(lia) ltac:(lia)) as (k' & E3 & L3).
    exists k'. rewrite <- E3. split.
    + rewrite Em. replace (2 * S m0) with (S (S (2 * m0))) by lia. done.
    + rewrite replicate_length, pairs_length in L3. cbn [Nat.pow]. lia.
Qed.
Lemma merges_blowup n fuel : 2 * n + 1 <= fuel -> exists k, last_common_parent_c fuel (merges n) [top n; top 0] = (Ret (top 0), k) /\ 2 ^ n <= k.
Proof.
  intros Hf. unfold last_common_parent_c. cbn [length imap]. destruct n as [|n].
  - destruct fuel as [|f]; [lia|]. exists 2. split; [|cbn; lia]. cbn [lcp_loop_c]. vm_compute. done.
  - destruct fuel as [|[|f]]; [lia|lia|]. cbn [lcp_loop_c lcp_level_c].
    assert (Hn : top 0 <> top (S n)) by (intros K%top_inj; lia).
    assert (E0 : mark_reach 2 ∅ (0, top (S n)) = (<[top (S n) := {[0]}]> ∅, false)).
    { unfold mark_reach. cbn [fst snd]. rewrite lookup_empty. cbn [default from_option id]. assert (E : {[0]} ∪ ∅ = ({[0]} : gset nat)) by set_solver. by rewrite E. }
    rewrite E0.
    assert (E1 : mark_reach 2 (<[top (S n) := {[0]}]> ∅) (1, top 0) = (<[top 0 := {[1]}]> (<[top (S n) := {[0]}]> ∅), false)).
    { unfold mark_reach. cbn [fst snd]. rewrite lookup_insert_ne by done. rewrite lookup_empty. cbn [default from_option id]. assert (E : {[1]} ∪ ∅ = ({[1]} : gset nat)) by set_solver. by rewrite E. }
    cbn [imap]. unfold compose. rewrite E1. cbn [fst snd app]. rewrite !merges_top by lia. cbn [default from_option id map app].
    assert (Hr : only_zero (<[top 0 := {[1]}]> (<[top (S n) := {[0]}]> ∅))).
    { split; [by rewrite lookup_insert|]. intros y Hy. rewrite lookup_insert_ne by done. destruct (decide (top (S n) = y)) as [<-|Hd]; [by rewrite lookup_insert|]. rewrite lookup_insert_ne by done. rewrite lookup_empty. set_solver. }
    destruct (level_one (merges (S n)) [left_of n; right_of n] _ [] 2 Hr) as (r2 & E2 & Hr2). { repeat constructor; discriminate. }
    match goal with |- context [lcp_level_c ?a ?b ?c ?d ?e ?k] => replace (lcp_level_c a b c d e k) with (lcp_level_c (merges (S n)) 2 (<[top 0:={[1]}]> (<[top (S n):={[0]}]> ∅)) (map (pair 0) [left_of n; right_of n]) [] 2) by reflexivity end.
    rewrite E2. cbn [map concat app length]. rewrite merges_left, merges_right by lia. cbn [default from_option id app map].
    destruct (merges_run (S n) n ltac:(lia) r2 2 4 f Hr2 ltac:(lia) ltac:(lia)) as (k' & E3 & L3). exists k'. cbn [replicate map] in E3. rewrite <- E3. split; [done|]. cbn [Nat.pow]. lia.
Qed.

(** *** One parent each *)
Lemma level_width g n curr : (forall c, length (parents g c) <= 1) -> forall reached ntr k,
  match lcp_level_c g n reached curr ntr k with (inl _, k') => k' <= k + length curr | (inr (_, l), k') => k' <= k + length curr /\ length l <= length ntr + length curr end.
Proof.
  intros Hg. induction curr as [|tr r IH]; intros reached ntr k; cbn [lcp_level_c length]; [split; lia|].
  destruct (mark_reach n reached tr) as [reached' []]; [lia|]. specialize (IH reached' (ntr ++ map (pair tr.1) (default [] (g !! tr.2))) (S k)).
  pose proof (Hg tr.2) as H1. unfold parents in H1. rewrite app_length, map_length in IH.
  destruct (lcp_level_c g n reached' r _ (S k)) as [[c|[r' l]] k']; lia.
Qed.
Lemma loop_width g n w fuel : (forall c, length (parents g c) <= 1) -> forall reached curr k, length curr <= w -> (lcp_loop_c fuel g n reached curr k).2 <= k + fuel * w.
Proof.
  intros Hg. induction fuel as [|f IH]; intros reached curr k Hw; cbn [lcp_loop_c]; [cbn; lia|].
  pose proof (level_width g n curr Hg reached [] k) as H. destruct (lcp_level_c g n reached curr [] k) as [[c|[r' [|t l]]] k']; cbn [snd]; [lia|lia|].
  destruct H as [H1 H2]. specialize (IH r' (t :: l) k' ltac:(cbn [length] in *; lia)). cbn [Nat.mul]. lia.
Qed.
Lemma chain_bound g fuel heads : (forall c, length (parents g c) <= 1) -> (last_common_parent_c fuel g heads).2 <= fuel * length heads.
Proof. intros Hg. apply (loop_width g (length heads) (length heads) fuel Hg ∅). by rewrite imap_length. Qed.
