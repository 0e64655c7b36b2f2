(** * C56: looking for repositories *)
From Verif.Model Require Import Base GoStrings GoSort GitRepos.
From Verif.Spec Require Import Discovery.
From Verif.Proofs Require Import GitReposProofs.
From Coq Require Import Lia.

Definition always_ok : callback := fun _ _ => None.

(** With a callback that succeeds, in a readable tree: one call for every repository within the limit and outside every working tree, in
    order of the paths, and no error. *)
Theorem C56_found_partial t root max :
  is_dir t -> accessible t -> listed_in_order t ->
  exists calls, iter_dir always_ok t [] root max [] = (calls, None) /\
    (forall p, p ∈ calls <-> repo_within t root max p) /\ NoDup calls /\
    (forall i j p q, i < j -> calls !! i = Some p -> calls !! j = Some q -> path_lt p q).
Proof.
  intros Hd Ha Hl. apply listed_sorted in Hl. exists (vis t root max).1. rewrite iter_consume, map_nil_app. unfold always_ok. rewrite consume_ok, (vis_no_error t root max Hd Hl Ha). split; [done|]. split; [|split].
  - intros p. split; [by apply vis_sound|]. apply vis_complete; [done|]. by apply vis_no_error.
  - by apply in_order_nodup, vis_order.
  - by apply vis_order.
Qed.
Print Assumptions C56_found_partial.

(** Any callback: its first error ends the search and is returned, nothing is called after it; without one, everything that a succeeding
    callback gets is called, with the same result. *)
Theorem C56_callback_error t root max all err cb :
  iter_dir always_ok t [] root max [] = (all, err) ->
  ((forall i p, all !! i = Some p -> cb (take i all) p = None) /\ iter_dir cb t [] root max [] = (all, err)) \/
  exists i p m, all !! i = Some p /\ cb (take i all) p = Some m /\ (forall j q, j < i -> all !! j = Some q -> cb (take j all) q = None) /\
    iter_dir cb t [] root max [] = (take (S i) all, Some m).
Proof.
  rewrite !iter_consume, map_nil_app. unfold always_ok. rewrite consume_ok. cbn [app]. intros [= <- <-].
  destruct (consume_spec cb [] (vis t root max).1 (vis t root max).2) as [[H1 H2]|(i & p & m & H)]; [left; by split|]. right. by exists i, p, m.
Qed.
Print Assumptions C56_callback_error.

(** With unreadable directories the search may end early, but it calls nothing that is not a repository, nothing twice, and keeps the order. *)
Theorem C56_nothing_else t root max cb calls err :
  listed_in_order t -> iter_dir cb t [] root max [] = (calls, err) ->
  (forall p, p ∈ calls -> repo_within t root max p) /\ NoDup calls /\
  (forall i j p q, i < j -> calls !! i = Some p -> calls !! j = Some q -> path_lt p q) /\
  (err = None -> forall p, repo_within t root max p -> p ∈ calls).
Proof.
  intros Hl. apply listed_sorted in Hl. rewrite iter_consume, map_nil_app. intros E.
  assert (Ho := vis_order t root max Hl). assert (Hs := vis_sound t root max). assert (Hn := in_order_nodup _ Ho).
  destruct (consume_spec cb [] (vis t root max).1 (vis t root max).2) as [[H1 H2]|(i & p & m & H1 & H2 & H3 & H4)].
  - rewrite H1 in E. cbn [app] in E. injection E as <- <-. split; [intros p; by apply Hs|]. split; [done|]. split; [done|]. intros He p. by apply vis_complete.
  - rewrite H4 in E. cbn [app] in E. injection E as <- <-. split; [|split; [|split; [|done]]].
    + intros q Hq. apply Hs; [done|]. rewrite <- (take_drop (S i) (vis t root max).1). apply elem_of_app. by left.
    + rewrite <- (take_drop (S i) (vis t root max).1) in Hn. by apply NoDup_app in Hn as [Hn _].
    + intros a b x y Hab Ha Hb. apply lookup_take_Some in Ha as [Ha _]. apply lookup_take_Some in Hb as [Hb _]. by apply (Ho a b).
Qed.
Print Assumptions C56_nothing_else.

(** ~/src: a working tree "app" with a repository inside, a bare repository "lib.git", a directory "old" with a working tree, and a link. *)
Definition git_dir : bytes * node := (B ".git", Dir true true [(B "HEAD", File); (B "objects", Dir true true [])]).
Definition ex_src : node := Dir true true
  [(B "app", Dir true true [git_dir; (B "vendor", Dir true true [git_dir])]);
   (B "lib.git", Dir true true [(B "HEAD", File); (B "objects", Dir true true [])]);
   (B "link", Link TDir);
   (B "old", Dir true true [(B "tool", Dir true true [git_dir])])].
Example C56_hypotheses_hold : is_dir ex_src /\ accessible ex_src /\ listed_in_order ex_src /\
  iter_dir always_ok ex_src [] (B "src") 1 [] = ([[B "app"]; [B "lib.git"]], None) /\
  iter_dir always_ok ex_src [] (B "src") (-1) [] = ([[B "app"]; [B "lib.git"]; [B "old"; B "tool"]], None).
Proof.
  assert (Hall : forall P : node -> Prop, (forall s r es, P (Dir s r es) -> forall n t, (n, t) ∈ es -> P t) -> forall t, P t -> forall p s, node_at t p = Some s -> P s).
  { intros P HP t Ht p. revert t Ht. induction p as [|n p IH]; intros t Ht s Hs; [by injection Hs as <-|]. cbn in Hs. destruct t as [| |s0 r es]; [done..|]. destruct (entry_of n es) as [t'|] eqn:E; [|done].
    apply (IH t'); [|done]. eapply HP; [exact Ht|]. by apply entry_of_some. }
  split; [by eexists _, _, _|]. split; [|split; [|split; vm_compute; reflexivity]].
  - intros p s Hs. set (ok := fix ok (t : node) : bool := match t with File => true | Link TLoop => false | Link _ => true | Dir s r es => s && r && forallb (fun e => ok e.2) es end).
    assert (Hok : ok s = true).
    { apply (Hall (fun t => ok t = true)) with (t := ex_src) (p := p); [|vm_compute; reflexivity|exact Hs].
      intros s0 r es H n t Hin. cbn in H. apply andb_prop in H as [_ H]. rewrite forallb_forall in H. apply (H (n, t)). by apply elem_of_list_In. }
    destruct s as [|[]|s0 r es]; try done. cbn in Hok. apply andb_prop in Hok as [Hok _]. by apply andb_prop in Hok as [-> ->].
  - intros p s r es Hs. set (ok := fix ok (t : node) : bool := match t with Dir _ _ es =>
        bool_decide (StronglySorted (fun a b => bytes_le a b /\ a <> b) (map fst es)) && forallb (fun e => ok e.2) es | _ => true end).
    assert (Hok : ok (Dir s r es) = true).
    { apply (Hall (fun t => ok t = true)) with (t := ex_src) (p := p); [|vm_compute; reflexivity|exact Hs].
      intros s0 r0 es0 H n t Hin. cbn in H. apply andb_prop in H as [_ H]. rewrite forallb_forall in H. apply (H (n, t)). by apply elem_of_list_In. }
    cbn in Hok. apply andb_prop in Hok as [Hok _]. rewrite bool_decide_eq_true in Hok. clear -Hok.
    intros i j a b Hij Ha Hb. revert i j Hij Ha Hb. induction es as [|e es IH]; intros i j Hij Ha Hb; [done|]. inversion Hok as [|? ? H1 H2]; subst. destruct j as [|j]; [lia|]. destruct i as [|i].
    + injection Ha as ->. rewrite Forall_forall in H2. apply H2. change (b.1 ∈ (fst <$> es)). apply elem_of_list_fmap. exists b. split; [done|]. by eapply elem_of_list_lookup_2.
    + apply (IH H1 i j); [lia|done|done].
Qed.

(** The search does go into a bare repository: a working tree in it is reported as well. *)
Theorem C56_inside_bare_refuted es n es' x :
  entry_of (B ".git") es = None -> has_dir (Dir true true es) (B "objects") ->
  (n, Dir true true es') ∈ es -> has_dir (Dir true true es') (B ".git") -> listed_in_order (Dir true true es) -> accessible (Dir true true es) ->
  exists calls, iter_dir always_ok (Dir true true es) [] (x ++ B ".git") 1 [] = (calls, None) /\ [] ∈ calls /\ [n] ∈ calls.
Proof.
  intros Hg Ho Hin Hw Hl Ha. destruct (C56_found_partial _ (x ++ B ".git") 1 ltac:(by eexists _, _, _) Ha Hl) as (calls & E & H & _). exists calls. split; [done|]. split; apply H.
  - apply within_nil. split; [by eexists _, _, _|]. right. split; [by exists x|done].
  - apply listed_sorted in Hl. inversion Hl as [| |? ? ? Hn _ _]; subst. apply within_cons; [done|]. split.
    + intros (s & Hs & _). cbn [node_at] in Hs. by rewrite Hg in Hs.
    + split; [done|]. eexists. split; [exact Hin|]. split; [by eexists _, _, _|]. apply within_nil. split; [by eexists _, _, _|]. by left.
Qed.
Print Assumptions C56_inside_bare_refuted.
Example C56_inside_bare_hypotheses_hold : exists es n es' x,
  entry_of (B ".git") es = None /\ has_dir (Dir true true es) (B "objects") /\ (n, Dir true true es') ∈ es /\ has_dir (Dir true true es') (B ".git") /\
  iter_dir always_ok (Dir true true es) [] (x ++ B ".git") 1 [] = ([[]; [n]], None).
Proof.
  exists [(B "objects", Dir true true []); (B "wt", Dir true true [git_dir])], (B "wt"), [git_dir], (B "lib"). split; [reflexivity|]. split.
  - exists (Dir true true []). split; [reflexivity|]. left. by eexists _, _, _.
  - split; [right; left|]. split; [|vm_compute; reflexivity]. eexists. split; [reflexivity|]. left. by eexists _, _, _.
Qed.

(** Submodules and linked working trees, where ".git" is a file, are not repositories to the search. *)
Theorem C56_git_file_refuted es root max cb :
  entry_of (B ".git") es = Some File -> entry_of (B "objects") es = None -> (forall n t, (n, t) ∈ es -> ~ is_dir t) ->
  iter_dir cb (Dir true true es) [] root max [] = ([], None).
Proof.
  intros Hg Ho Hn. rewrite iter_dir_eq. unfold dir_contains_dir. rewrite Hg, Ho. assert (Hr : rest cb [] max true es [] = ([], None)).
  { unfold rest. destruct (decide _); [done|]. cbn [negb]. clear -Hn. induction es as [|[n t] es IH]; [done|]. cbn [loop]. destruct t as [| |s r es']; [apply IH; intros n' t' Hin; apply (Hn n'); by right..|].
    exfalso. apply (Hn n (Dir s r es')); [left|by eexists _, _, _]. }
  rewrite Hr. by destruct (decide _).
Qed.
Print Assumptions C56_git_file_refuted.
Example C56_git_file_hypotheses_hold : exists es, entry_of (B ".git") es = Some File /\ entry_of (B "objects") es = None /\ (forall n t, (n, t) ∈ es -> ~ is_dir t) /\ length es = 2.
Proof.
  exists [(B ".git", File); (B "main.go", File)]. split; [reflexivity|]. split; [reflexivity|]. split; [|reflexivity].
  intros n t Hin (s & r & es & ->). apply elem_of_cons in Hin as [[=]|Hin]. apply elem_of_cons in Hin as [[=]|Hin]. by apply elem_of_nil in Hin.
Qed.
