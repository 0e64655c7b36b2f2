(** * Looking for repositories: proofs for C56 *)
From Verif.Model Require Import Base GoStrings GoSort GitRepos.
From Verif.Spec Require Import Discovery.
From Verif.Proofs Require Import SortLemmas.
From Coq Require Import Lia.

Section ind.
  Context (P : node -> Prop) (Hf : P File) (Hl : forall t, P (Link t))
    (Hd : forall s r es, Forall (fun e => P e.2) es -> P (Dir s r es)).
  Fixpoint node_ind' (t : node) : P t :=
    match t with
    | File => Hf
    | Link t => Hl t
    | Dir s r es => Hd s r es ((fix go es : Forall (fun e => P e.2) es :=
        match es with [] => Forall_nil_2 _ | e :: es => Forall_cons_2 _ e es (node_ind' e.2) (go es) end) es)
    end.
End ind.

Section loop.
  Context (cb : callback) (p : path) (max : Z).
  Fixpoint loop (es : list (bytes * node)) (calls : list path) : list path * option bytes :=
    match es with
    | [] => (calls, None)
    | (n, sub) :: es =>
        match sub with
        | Dir _ _ _ =>
            match iter_dir cb sub (p ++ [n]) n (max - 1) calls with
            | (calls, None) => loop es calls
            | (calls, Some e) => (calls, Some e)
            end
        | _ => loop es calls
        end
    end.
End loop.
Definition rest cb p max (read : bool) es calls : list path * option bytes :=
  if decide (max = 0)%Z then (calls, None) else if negb read then (calls, Some (B "can't read passed dir")) else loop cb p max es calls.
Lemma iter_dir_eq cb s r es p name max calls : iter_dir cb (Dir s r es) p name max calls =
  match dir_contains_dir s es (B ".git") with
  | Err e | Panic e => (calls, Some e)
  | Ret true => (calls ++ [p], cb calls p)
  | Ret false =>
      if decide (ext name = B ".git") then
        match dir_contains_dir s es (B "objects") with
        | Err e | Panic e => (calls, Some e)
        | Ret true => match cb calls p with Some e => (calls ++ [p], Some e) | None => rest cb p max r es (calls ++ [p]) end
        | Ret false => rest cb p max r es calls
        end
      else rest cb p max r es calls
  end.
Proof. reflexivity. Qed.

(** The calls made when every call succeeds, relative to the directory. *)
Fixpoint vis (t : node) (name : bytes) (max : Z) : list path * option bytes :=
  match t with
  | Link TMissing | Link TLoop => ([], Some (B "can't stat passed dir"))
  | File | Link _ => ([], Some (B "passed dir is a file, expecting a dir"))
  | Dir s r es =>
      match dir_contains_dir s es (B ".git") with
      | Err e | Panic e => ([], Some e)
      | Ret true => ([[]], None)
      | Ret false =>
          let rest :=
            if decide (max = 0)%Z then ([], None) else if negb r then ([], Some (B "can't read passed dir")) else
              (fix loop es := match es with
                 | [] => ([], None)
                 | (n, sub) :: es =>
                     match sub with
                     | Dir _ _ _ => match vis sub n (max - 1) with
                                    | (l, None) => (map (cons n) l ++ (loop es).1, (loop es).2)
                                    | (l, Some e) => (map (cons n) l, Some e)
                                    end
                     | _ => loop es
                     end
                 end) es in
          if decide (ext name = B ".git") then
            match dir_contains_dir s es (B "objects") with
            | Err e | Panic e => ([], Some e)
            | Ret true => ([] :: rest.1, rest.2)
            | Ret false => rest
            end
          else rest
      end
  end.
Section vloop.
Context (max : Z).
Fixpoint vloop es : list path * option bytes :=
  match es with
  | [] => ([], None)
  | (n, sub) :: es =>
      match sub with
      | Dir _ _ _ => match vis sub n (max - 1) with
                     | (l, None) => (map (cons n) l ++ (vloop es).1, (vloop es).2)
                     | (l, Some e) => (map (cons n) l, Some e)
                     end
      | _ => vloop es
      end
  end.
End vloop.
Definition vrest max (read : bool) es : list path * option bytes :=
  if decide (max = 0)%Z then ([], None) else if negb read then ([], Some (B "can't read passed dir")) else vloop max es.
Lemma vis_eq s r es name max : vis (Dir s r es) name max =
  match dir_contains_dir s es (B ".git") with
  | Err e | Panic e => ([], Some e)
  | Ret true => ([[]], None)
  | Ret false =>
      if decide (ext name = B ".git") then
        match dir_contains_dir s es (B "objects") with
        | Err e | Panic e => ([], Some e)
        | Ret true => ([] :: (vrest max r es).1, (vrest max r es).2)
        | Ret false => vrest max r es
        end
      else vrest max r es
  end.
Proof. reflexivity. Qed.

Fixpoint consume (cb : callback) (calls vs : list path) (e : option bytes) : list path * option bytes :=
  match vs with
  | [] => (calls, e)
  | v :: vs => match cb calls v with Some m => (calls ++ [v], Some m) | None => consume cb (calls ++ [v]) vs e end
  end.
Lemma consume_app cb calls vs ws e : consume cb calls (vs ++ ws) e = match consume cb calls vs None with (c, None) => consume cb c ws e | x => x end.
Proof. revert calls. induction vs as [|v vs IH]; intros calls; [done|]. cbn. destruct (cb calls v); [done|]. apply IH. Qed.
Lemma consume_err cb calls vs m : exists m', (consume cb calls vs (Some m)).2 = Some m'.
Proof. revert calls. induction vs as [|v vs IH]; intros calls; [by eexists|]. cbn. destruct (cb calls v); [by eexists|]. apply IH. Qed.

Lemma map_cons_app (p : path) n (l : list path) : map (app p) (map (cons n) l) = map (app (p ++ [n])) l.
Proof. rewrite map_map. apply map_ext. intros x. by rewrite <- app_assoc. Qed.
Lemma iter_consume cb t p name max calls : iter_dir cb t p name max calls = consume cb calls (map (app p) (vis t name max).1) (vis t name max).2.
Proof.
  revert p name max calls. induction t as [|t|s r es IH] using node_ind'; intros p name max calls; [done|by destruct t|].
  assert (Hloop : forall calls, loop cb p max es calls = consume cb calls (map (app p) (vloop max es).1) (vloop max es).2).
  { clear calls. induction IH as [|[n sub] es Hsub _ IHes]; intros calls; [done|]. cbn [loop vloop]. destruct sub as [|t|s' r' es']; [apply IHes..|].
    cbn [snd] in Hsub. rewrite Hsub. destruct (vis (Dir s' r' es') n (max - 1)) as [l [e|]]; cbn [fst snd].
    - rewrite map_cons_app. destruct (consume_err cb calls (map (app (p ++ [n])) l) e) as [m' Hm]. destruct (consume cb calls (map (app (p ++ [n])) l) (Some e)) as [c o]. cbn in Hm. by subst o.
    - rewrite map_app, map_cons_app, consume_app. destruct (consume cb calls (map (app (p ++ [n])) l) None) as [c [m|]]; [done|]. apply IHes. }
  assert (Hrest : forall calls, rest cb p max r es calls = consume cb calls (map (app p) (vrest max r es).1) (vrest max r es).2).
  { intros c. unfold rest, vrest. destruct (decide _); [done|]. destruct (negb r); [done|]. apply Hloop. }
  rewrite iter_dir_eq, vis_eq. destruct (dir_contains_dir s es (B ".git")) as [[|]|e|e]; [|..|done|done].
  - cbn. rewrite app_nil_r. by destruct (cb calls p).
  - destruct (decide _); [|apply Hrest]. destruct (dir_contains_dir s es (B "objects")) as [[|]|e'|e']; [|apply Hrest|done|done].
    cbn [fst snd map consume]. rewrite app_nil_r. destruct (cb calls p); [done|]. apply Hrest.
Qed.
Lemma consume_spec cb calls vs e :
  (consume cb calls vs e = (calls ++ vs, e) /\ forall i p, vs !! i = Some p -> cb (calls ++ take i vs) p = None) \/
  exists i p m, vs !! i = Some p /\ cb (calls ++ take i vs) p = Some m /\ (forall j q, j < i -> vs !! j = Some q -> cb (calls ++ take j vs) q = None) /\
    consume cb calls vs e = (calls ++ take (S i) vs, Some m).
Proof.
  revert calls. induction vs as [|v vs IH]; intros calls; [left; cbn; by rewrite app_nil_r|]. cbn [consume]. destruct (cb calls v) as [m|] eqn:E.
  - right. exists 0, v, m. split; [done|]. split; [cbn; by rewrite app_nil_r|]. split; [lia|]. cbn. done.
  - destruct (IH (calls ++ [v])) as [[H1 H2]|(i & p & m & H1 & H2 & H3 & H4)].
    + left. split; [rewrite H1; by rewrite <- app_assoc|]. intros [|i] p Hp; [injection Hp as <-; cbn; by rewrite app_nil_r|].
      cbn [take]. specialize (H2 i p Hp). by rewrite <- app_assoc in H2.
    + right. exists (S i), p, m. split; [done|]. split; [cbn [take]; by rewrite <- app_assoc in H2|]. split; [|rewrite H4; by rewrite <- app_assoc].
      intros [|j] q Hj Hq; [injection Hq as <-; cbn; by rewrite app_nil_r|]. specialize (H3 j q ltac:(lia) Hq). cbn [take]. by rewrite <- app_assoc in H3.
Qed.
Lemma consume_ok calls vs e : consume (fun _ _ => None) calls vs e = (calls ++ vs, e).
Proof. revert calls. induction vs as [|v vs IH]; intros calls; [cbn; by rewrite app_nil_r|]. cbn. rewrite IH. by rewrite <- app_assoc. Qed.

(** ** Which calls *)
Lemma ext_last x : ext (x ++ B ".git") = B ".git".
Proof. induction x as [|c x IH]; [reflexivity|]. cbn [app ext]. rewrite IH. reflexivity. Qed.
Lemma ext_suffix name : exists x, name = x ++ ext name.
Proof.
  induction name as [|c r [x IH]]; [by exists []|]. cbn [ext]. destruct (ext r) as [|d e] eqn:E.
  - destruct (decide _); [by exists []|]. exists (c :: r). by rewrite app_nil_r.
  - exists (c :: x). cbn. by rewrite <- IH.
Qed.
Lemma ext_git name : ext name = B ".git" <-> exists x, name = x ++ B ".git".
Proof. split; [|intros [x ->]; apply ext_last]. intros E. destruct (ext_suffix name) as [x Hx]. exists x. by rewrite <- E. Qed.

Lemma contains_spec s es sub b r : dir_contains_dir s es sub = Ret b -> b = true <-> has_dir (Dir s r es) sub.
Proof.
  unfold dir_contains_dir, has_dir, is_dir. cbn [node_at]. destruct s; [|done]. destruct (entry_of sub es) as [[|[]|]|]; intros [= <-]; (split; [|]); try done.
  - intros (? & [= <-] & [(? & ? & ? & ?)|?]); done.
  - intros (? & [= <-] & [(? & ? & ? & ?)|?]); done.
  - intros _. eexists. split; [done|]. by right.
  - intros (? & [= <-] & [(? & ? & ? & ?)|?]); done.
  - intros _. eexists. split; [done|]. left. by eexists _, _, _.
  - intros (? & ? & _); done.
Qed.
Lemma entry_of_in n t es : NoDup (map fst es) -> (n, t) ∈ es -> entry_of n es = Some t.
Proof.
  induction es as [|[m s] es IH]; intros Hn Hin; [by apply elem_of_nil in Hin|]. cbn in Hn. apply NoDup_cons in Hn as [Hm Hn]. cbn. apply elem_of_cons in Hin as [[= -> ->]|Hin].
  - by rewrite decide_True.
  - rewrite decide_False; [by apply IH|]. intros ->. apply Hm. change (n ∈ (fst <$> es)). apply elem_of_list_fmap. by exists (n, t).
Qed.
Lemma entry_of_some n t es : entry_of n es = Some t -> (n, t) ∈ es.
Proof. induction es as [|[m s] es IH]; [done|]. cbn. destruct (decide _) as [->|]; [intros [= ->]; left|]. intros H. right. by apply IH. Qed.

(** Listing in order, structurally. *)
Inductive sorted_tree : node -> Prop :=
| st_file : sorted_tree File
| st_link t : sorted_tree (Link t)
| st_dir s r es : NoDup (map fst es) -> (forall i j a b, i < j -> es !! i = Some a -> es !! j = Some b -> name_lt a.1 b.1) ->
    (forall n t, (n, t) ∈ es -> sorted_tree t) -> sorted_tree (Dir s r es).
Lemma ordered_nodup es : (forall i j (a b : bytes * node), i < j -> es !! i = Some a -> es !! j = Some b -> name_lt a.1 b.1) -> NoDup (map fst es).
Proof.
  intros H. apply NoDup_alt. change (map fst es) with (fst <$> es). intros i j x Hi Hj. rewrite list_lookup_fmap in Hi, Hj. destruct (es !! i) as [a|] eqn:Ei; [|done]. destruct (es !! j) as [b|] eqn:Ej; [|done].
  cbn in Hi, Hj. destruct (Nat.lt_trichotomy i j) as [Hlt|[->|Hlt]]; [|done|].
  - destruct (H i j a b Hlt Ei Ej) as [_ Hne]. congruence.
  - destruct (H j i b a Hlt Ej Ei) as [_ Hne]. congruence.
Qed.
Lemma listed_sorted t : listed_in_order t -> sorted_tree t.
Proof.
  induction t as [|t|s r es IH] using node_ind'; intros Hl; [constructor..|]. assert (Ho := Hl [] s r es eq_refl). assert (Hn := ordered_nodup es Ho). constructor; [done|done|].
  intros n t Hin. rewrite Forall_forall in IH. apply (IH _ Hin). cbn. intros p s' r' es' Hp. apply (Hl (n :: p) s' r' es'). cbn. by rewrite (entry_of_in n t).
Qed.

Lemma vloop_in max es q : (q ∈ (vloop max es).1 -> exists n t q', q = n :: q' /\ (n, t) ∈ es /\ is_dir t /\ q' ∈ (vis t n (max - 1)).1) /\
  ((vloop max es).2 = None -> forall n t q', (n, t) ∈ es -> is_dir t -> q' ∈ (vis t n (max - 1)).1 -> n :: q' ∈ (vloop max es).1).
Proof.
  induction es as [|[m s] es [IH1 IH2]]; [split; [intros H; by apply elem_of_nil in H|intros _ n t q' H; by apply elem_of_nil in H]|].
  assert (Hnd : (~ is_dir s) -> vloop max ((m, s) :: es) = vloop max es) by (intros Hx; cbn; destruct s; [done..|]; exfalso; apply Hx; by eexists _, _, _).
  assert (is_dir s \/ ~ is_dir s) as [Hd|Hd]; [destruct s; [right; by intros (? & ? & ? & ?)..|left; by eexists _, _, _]| |].
  - assert (E : vloop max ((m, s) :: es) = match vis s m (max - 1) with (l, None) => (map (cons m) l ++ (vloop max es).1, (vloop max es).2) | (l, Some e) => (map (cons m) l, Some e) end) by (cbn; by destruct Hd as (? & ? & ? & ->)).
    rewrite E. destruct (vis s m (max - 1)) as [l [e|]] eqn:Ev; cbn [fst snd]; change (map (cons m) l) with (cons m <$> l); split.
    + intros H. apply elem_of_list_fmap in H as (q' & -> & H). exists m, s, q'. split; [done|]. split; [left|]. split; [done|]. by rewrite Ev.
    + done.
    + intros H. apply elem_of_app in H as [H|H].
      * apply elem_of_list_fmap in H as (q' & -> & H). exists m, s, q'. split; [done|]. split; [left|]. split; [done|]. by rewrite Ev.
      * destruct (IH1 H) as (n & t & q' & -> & H1 & H2). exists n, t, q'. split; [done|]. split; [by right|done].
    + intros He n t q' Hin Hdt Hq. apply elem_of_app. apply elem_of_cons in Hin as [[= -> ->]|Hin]; [|right; by eapply IH2].
      left. apply elem_of_list_fmap. exists q'. split; [done|]. by rewrite Ev in Hq.
  - rewrite (Hnd Hd). split.
    + intros H. destruct (IH1 H) as (n & t & q' & -> & H1 & H2). exists n, t, q'. split; [done|]. split; [by right|done].
    + intros He n t q' Hin Hdt Hq. apply elem_of_cons in Hin as [[= -> ->]|Hin]; [done|]. by eapply IH2.
Qed.
Lemma within_nil t root max : repo_within t root max [] <-> is_dir t /\ (work_tree t \/ bare_repo root t).
Proof.
  split.
  - intros (d & [= <-] & H1 & _ & H2 & _). done.
  - intros [H1 H2]. exists t. split; [done|]. split; [done|]. split; [cbn; lia|]. split; [done|]. intros q r Hq Hr. symmetry in Hq. apply app_eq_nil in Hq as [_ ->]. done.
Qed.
Lemma name_of_cons root n p : name_of root (n :: p) = name_of n p.
Proof. unfold name_of. destruct p as [|m p]; [done|]. rewrite last_cons_cons. destruct (last (m :: p)) eqn:E; [done|]. by apply last_None in E. Qed.
Lemma within_cons s r es root max n p : NoDup (map fst es) ->
  repo_within (Dir s r es) root max (n :: p) <-> ~ work_tree (Dir s r es) /\ max <> 0%Z /\ exists t, (n, t) ∈ es /\ is_dir t /\ repo_within t n (max - 1) p.
Proof.
  intros Hnd. split.
  - intros (d & Hd & H1 & H2 & H3 & H4). split; [by apply (H4 [] (n :: p))|]. split; [destruct H2 as [H2|H2]; cbn in H2; lia|]. cbn in Hd. destruct (entry_of n es) as [t|] eqn:E; [|done].
    exists t. split; [by apply entry_of_some|]. split.
    + destruct p as [|m p]; [injection Hd as ->; done|]. cbn in Hd. destruct t; [done..|]. by eexists _, _, _.
    + exists d. split; [done|]. split; [done|]. split; [destruct H2 as [H2|H2]; [left; lia|right; cbn in H2; lia]|]. split; [by rewrite name_of_cons in H3|].
      intros q r' -> Hr s' Hs'. apply (H4 (n :: q) r'); [done|done|]. cbn. by rewrite E.
  - intros (Hw & Hm & t & Hin & Ht & d & Hd & H1 & H2 & H3 & H4). exists d. split; [cbn; by rewrite (entry_of_in n t)|]. split; [done|].
    split; [destruct H2 as [H2|H2]; [|right; cbn; lia]|].
    { left. lia. }
    split; [by rewrite name_of_cons|]. intros [|m q] r' Hq Hr s' Hs'; [by injection Hs' as <-|]. injection Hq as <- ->. cbn in Hs'. rewrite (entry_of_in n t) in Hs' by done. by apply (H4 q r').
Qed.
Lemma vis_sound t root max q : sorted_tree t -> q ∈ (vis t root max).1 -> repo_within t root max q.
Proof.
  revert root max q. induction t as [|t|s r es IH] using node_ind'; intros root max q Hst Hq; [by apply elem_of_nil in Hq|destruct t; by apply elem_of_nil in Hq|].
  inversion Hst as [| |? ? ? Hn Ho Hsub]; subst. rewrite vis_eq in Hq.
  assert (Hrest : dir_contains_dir s es (B ".git") = Ret false -> q ∈ (vrest max r es).1 -> repo_within (Dir s r es) root max q).
  { intros Hg. unfold vrest. destruct (decide (max = 0%Z)) as [|Hm]; [intros H; by apply elem_of_nil in H|]. destruct (negb r); [intros H; by apply elem_of_nil in H|]. intros H.
    apply (proj1 (vloop_in max es q)) in H as (n & t & q' & -> & Hin & Ht & Hq'). apply within_cons; [done|]. split; [intros Hw; by apply (contains_spec s es (B ".git") false r Hg) in Hw|]. split; [done|].
    exists t. split; [done|]. split; [done|]. rewrite Forall_forall in IH. apply (IH _ Hin); [by apply (Hsub n)|done]. }
  destruct (dir_contains_dir s es (B ".git")) as [[|]|e|e] eqn:Eg; [..|by apply elem_of_nil in Hq|by apply elem_of_nil in Hq].
  - apply elem_of_list_singleton in Hq as ->. apply within_nil. split; [by eexists _, _, _|]. left. by apply (contains_spec _ _ _ _ r Eg).
  - destruct (decide (ext root = B ".git")) as [Ex|]; [|by apply Hrest]. destruct (dir_contains_dir s es (B "objects")) as [[|]|e|e] eqn:Eo; [|by apply Hrest|by apply elem_of_nil in Hq|by apply elem_of_nil in Hq].
    cbn [fst] in Hq. apply elem_of_cons in Hq as [->|Hq]; [|by apply Hrest]. apply within_nil. split; [by eexists _, _, _|]. right. split; [by apply ext_git|]. by apply (contains_spec _ _ _ _ r Eo).
Qed.
Lemma access_sub s r es n t : NoDup (map fst es) -> (n, t) ∈ es -> accessible (Dir s r es) -> accessible t.
Proof. intros Hn Hin H p s' Hp. apply (H (n :: p)). cbn. by rewrite (entry_of_in n t). Qed.
Lemma access_contains s r es sub : accessible (Dir s r es) -> exists b, dir_contains_dir s es sub = Ret b.
Proof.
  intros H. destruct (H [] _ eq_refl) as [-> _]. unfold dir_contains_dir. destruct (entry_of sub es) as [[|[]|]|] eqn:E; try by eexists. exfalso. apply (H [sub] (Link TLoop)). cbn. by rewrite E.
Qed.
Lemma vis_no_error t root max : is_dir t -> sorted_tree t -> accessible t -> (vis t root max).2 = None.
Proof.
  revert root max. induction t as [|t|s r es IH] using node_ind'; intros root max Hd Hst Ha; [destruct Hd as (? & ? & ? & ?); done..|].
  inversion Hst as [| |? ? ? Hn Ho Hsub]; subst.
  assert (Hrest : (vrest max r es).2 = None).
  { unfold vrest. destruct (decide (max = 0%Z)) as [|Hm0]; [done|]. destruct (Ha [] _ eq_refl) as [_ ->]. cbn [negb].
    assert (Hall : forall n t, (n, t) ∈ es -> is_dir t -> (vis t n (max - 1)).2 = None).
    { intros n t Hin Hdt. rewrite Forall_forall in IH. apply (IH _ Hin); [done|by eapply Hsub|by eapply access_sub]. }
    clear -Hall. induction es as [|[n t] es IHe]; [done|]. assert (IH := IHe (fun n' t' Hin => Hall n' t' ltac:(by right))). cbn. destruct t as [|t|s' r' es']; [done..|].
    assert (E := Hall n _ ltac:(left) ltac:(by eexists _, _, _)). destruct (vis _ n (max - 1)) as [l [e|]]; done. }
  rewrite vis_eq. destruct (access_contains s r es (B ".git") Ha) as [[|] ->]; [done|]. destruct (decide _); [|done]. by destruct (access_contains s r es (B "objects") Ha) as [[|] ->].
Qed.
Lemma vis_complete t root max q : sorted_tree t -> (vis t root max).2 = None -> repo_within t root max q -> q ∈ (vis t root max).1.
Proof.
  revert root max q. induction t as [|t|s r es IH] using node_ind'; intros root max q Hst He Hq; [done|by destruct t|].
  inversion Hst as [| |? ? ? Hn Ho Hsub]; subst. rewrite vis_eq in He |- *.
  assert (Hrest : (vrest max r es).2 = None -> q <> [] -> q ∈ (vrest max r es).1).
  { intros He' Hne. destruct q as [|n q]; [done|]. apply within_cons in Hq as (_ & Hm & t & Hin & Ht & Hq); [|done]. unfold vrest in *. rewrite decide_False in He' |- * by done.
    destruct (negb r); [done|]. apply (proj2 (vloop_in max es [])) with (t := t); [done|done|done|]. rewrite Forall_forall in IH. apply (IH _ Hin); [by eapply Hsub| |done].
    clear -He' Hin Ht. cbn [snd]. rename He' into He1. induction es as [|[n' t'] es IHe]; [by apply elem_of_nil in Hin|]. apply elem_of_cons in Hin as [[= <- <-]|Hin].
    - destruct Ht as (s & r & es' & ->). cbn [vloop] in He1. by destruct (vis (Dir s r es') n (max - 1)) as [l [e|]].
    - apply IHe; [done|]. cbn [vloop] in He1. destruct t' as [|t'|s' r' es']; [done..|]. by destruct (vis (Dir s' r' es') n' (max - 1)) as [l [e|]]. }
  destruct (dir_contains_dir s es (B ".git")) as [[|]|e|e] eqn:Eg; [| |done|done].
  - destruct q as [|n q]; [by apply elem_of_list_singleton|]. apply within_cons in Hq as (Hw & _); [|done]. exfalso. apply Hw. by apply (contains_spec _ _ _ _ r Eg).
  - assert (Hnw : ~ work_tree (Dir s r es)) by (intros Hw; by apply (contains_spec s es (B ".git") false r Eg) in Hw). destruct (decide (ext root = B ".git")) as [Ex|Ex].
    + destruct (dir_contains_dir s es (B "objects")) as [[|]|e|e] eqn:Eo; [| |done|done].
      * cbn [fst snd] in *. destruct q as [|n q]; [left|right; by apply Hrest].
      * apply Hrest; [done|]. intros ->. apply within_nil in Hq as [_ [Hw|[_ Hb]]]; [done|]. by apply (contains_spec s es (B "objects") false r Eo) in Hb.
    + apply Hrest; [done|]. intros ->. apply within_nil in Hq as [_ [Hw|[Hb _]]]; [done|]. by apply ext_git in Hb.
Qed.

(** In order. *)
Definition in_order (l : list path) : Prop := forall i j p q, i < j -> l !! i = Some p -> l !! j = Some q -> path_lt p q.
Lemma in_order_cons p l : (forall q, q ∈ l -> path_lt p q) -> in_order l -> in_order (p :: l).
Proof. intros H1 H2 [|i] [|j] a b Hij Ha Hb; [lia| |lia|]; [injection Ha as <-; apply H1; by eapply elem_of_list_lookup_2|]. apply (H2 i j); [lia|done|done]. Qed.
Lemma in_order_app l l' : in_order l -> in_order l' -> (forall p q, p ∈ l -> q ∈ l' -> path_lt p q) -> in_order (l ++ l').
Proof.
  intros H1 H2 H3. induction l as [|p l IH]; [done|]. cbn. apply in_order_cons.
  - intros q Hq. apply elem_of_app in Hq as [Hq|Hq]; [|apply H3; [left|done]]. apply elem_of_list_lookup in Hq as [j Hj]. apply (H1 0 (S j) p q); [lia|done|done].
  - apply IH; [|intros a b Ha Hb; apply H3; [by right|done]]. intros i j a b Hij Ha Hb. apply (H1 (S i) (S j)); [lia|done|done].
Qed.
Lemma path_lt_cons n p q : path_lt p q -> path_lt (n :: p) (n :: q).
Proof.
  intros [(r & Hr & ->)|(c & a & b & p' & q' & -> & -> & Hab)]; [left; by exists r|]. right. exists (n :: c), a, b, p', q'. done.
Qed.
Lemma in_order_map n l : in_order l -> in_order (map (cons n) l).
Proof.
  intros H i j p q Hij Hp Hq. change (map (cons n) l) with (cons n <$> l) in *. rewrite list_lookup_fmap in Hp, Hq. destruct (l !! i) eqn:Ei; [|done]. destruct (l !! j) eqn:Ej; [|done].
  injection Hp as <-. injection Hq as <-. apply path_lt_cons. by apply (H i j).
Qed.
Lemma in_order_nil : in_order [].
Proof. intros i j p q _ H. done. Qed.
Lemma vis_order t root max : sorted_tree t -> in_order (vis t root max).1.
Proof.
  revert root max. induction t as [|t|s r es IH] using node_ind'; intros root max Hst; [apply in_order_nil|destruct t; apply in_order_nil|].
  inversion Hst as [| |? ? ? Hn Ho Hsub]; subst. assert (Hloop : in_order (vloop max es).1).
  { clear Hn Hst. induction es as [|[n t] es IHe]; [apply in_order_nil|]. apply Forall_cons in IH as [Ht IH].
    assert (Hes : in_order (vloop max es).1).
    { apply IHe; [done| |].
      - intros i j a b Hij Ha Hb. apply (Ho (S i) (S j)); [lia|done|done].
      - intros n' t' Hin. apply (Hsub n'). by right. }
    assert (Hv : in_order (map (cons n) (vis t n (max - 1)).1)) by (apply in_order_map, Ht; apply (Hsub n); left).
    cbn [vloop]. destruct t as [|t|s' r' es']; [done..|]. destruct (vis (Dir s' r' es') n (max - 1)) as [l [e|]] eqn:Ev; cbn [fst snd] in *; [done|].
    apply in_order_app; [done|done|]. intros p q Hp Hq. change (map (cons n) l) with (cons n <$> l) in Hp. apply elem_of_list_fmap in Hp as (p' & -> & _).
    apply (proj1 (vloop_in max es q)) in Hq as (n' & t' & q' & -> & Hin & _). right. exists [], n, n', p', q'. split; [done|]. split; [done|].
    apply elem_of_list_lookup in Hin as [j Hj]. apply (Ho 0 (S j) (n, Dir s' r' es') (n', t')); [lia|done|done]. }
  assert (Hrest : in_order (vrest max r es).1) by (unfold vrest; destruct (decide (max = 0%Z)); [apply in_order_nil|]; destruct (negb r); [apply in_order_nil|done]).
  rewrite vis_eq. destruct (dir_contains_dir s es (B ".git")) as [[|]|e|e]; [|..|apply in_order_nil|apply in_order_nil].
  - apply in_order_cons; [intros q Hq; by apply elem_of_nil in Hq|apply in_order_nil].
  - destruct (decide _) as [?|?]; [|done]. destruct (dir_contains_dir s es (B "objects")) as [[|]|e'|e']; [|done|apply in_order_nil|apply in_order_nil].
    cbn [fst]. apply in_order_cons; [|done]. intros q Hq. unfold vrest in Hq. destruct (decide (max = 0%Z)); [by apply elem_of_nil in Hq|]. destruct (negb r); [by apply elem_of_nil in Hq|].
    apply (proj1 (vloop_in max es q)) in Hq as (n' & t' & q' & -> & _). left. by exists (n' :: q').
Qed.
Lemma path_lt_irrefl p : ~ path_lt p p.
Proof.
  intros [(r & Hr & E)|(c & a & b & p' & q' & -> & E & [_ Hab])].
  - apply Hr. apply (app_inv_head p). by rewrite app_nil_r, <- E.
  - apply app_inv_head in E. by injection E as -> ->.
Qed.
Lemma in_order_nodup l : in_order l -> NoDup l.
Proof.
  intros H. apply NoDup_alt. intros i j x Hi Hj. destruct (Nat.lt_trichotomy i j) as [Hlt|[->|Hlt]]; [|done|]; exfalso; eapply path_lt_irrefl; [apply (H i j)|apply (H j i)]; done.
Qed.
Lemma map_nil_app (l : list path) : map (app []) l = l.
Proof. apply map_id. Qed.
