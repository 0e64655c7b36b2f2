(** * C89: lines of the log *)
From Verif.Model Require Import Base GoStrings Logger.
From Verif.Spec Require Import Text Logging.
From Coq Require Import Lia Wf_nat.

Lemma interleaving_snoc {A} (tss : list (list A)) l : interleaving tss l -> forall i d x, tss !! i = Some d -> interleaving (<[i := d ++ [x]]> tss) (l ++ [x]).
Proof.
  induction 1 as [tss HF|tss j y t l Hj Hl IH]; intros i d x Hi.
  - assert (d = []) as -> by (by eapply (proj1 (Forall_lookup _ _) HF)). cbn [app]. apply (il_cons _ i x []).
    + apply list_lookup_insert. by eapply lookup_lt_Some.
    + apply il_nil. rewrite list_insert_insert. by apply Forall_insert.
  - cbn [app]. destruct (decide (i = j)) as [->|Hne].
    + rewrite Hj in Hi. injection Hi as <-. apply (il_cons _ j y (t ++ [x])); [apply list_lookup_insert; by eapply lookup_lt_Some|].
      rewrite list_insert_insert. rewrite <- (list_insert_insert tss j (t ++ [x]) t). apply IH. apply list_lookup_insert. by eapply lookup_lt_Some.
    + apply (il_cons _ j y t); [by rewrite list_lookup_insert_ne|]. rewrite list_insert_commute by done. apply IH. by rewrite list_lookup_insert_ne.
Qed.
Lemma unlines_snoc l x : unlines (l ++ [x]) = unlines l ++ x ++ [NL].
Proof. unfold unlines. rewrite map_app, concat_app. cbn. by rewrite app_nil_r. Qed.

(** What a goroutine has not yet written. *)
Definition todo (t : thread) : list bytes := match th_at t with PNewline => tail (th_lines t) | _ => th_lines t end.
Definition partly (t : thread) : bytes := match th_at t, th_lines t with PText, l :: _ => l | _, _ => [] end.

Section One.
Context (g : nat) (all : list (list bytes)).
Definition written (s : lsys) (dn : list (list bytes)) : Prop :=
  length (ls_threads s) = length all /\ length dn = length all /\
  forall i t, ls_threads s !! i = Some t -> th_logger t = g /\ exists d, dn !! i = Some d /\ all !! i = Some (d ++ todo t).
Definition locked (s : lsys) (part : bytes) : Prop :=
  match ls_locks s !! g with
  | None => part = [] /\ forall i t, ls_threads s !! i = Some t -> th_at t = POut
  | Some i => (exists t, ls_threads s !! i = Some t /\ th_at t <> POut /\ th_lines t <> [] /\ part = partly t) /\
              forall j t, ls_threads s !! j = Some t -> j <> i -> th_at t = POut
  end.
Definition linv (s : lsys) : Prop :=
  exists dn ls part, written s dn /\ interleaving dn ls /\ locked s part /\ ls_out s = unlines ls ++ part.

Lemma written_same s dn i t t' lk out : written s dn -> ls_threads s !! i = Some t -> th_logger t' = th_logger t -> todo t' = todo t ->
  written (Lsys (<[i := t']> (ls_threads s)) lk out) dn.
Proof.
  intros (H1 & H2 & H3) Ht Hg Htd. split; [cbn; by rewrite insert_length|]. split; [done|]. cbn [ls_threads]. intros j u Hu. destruct (decide (i = j)) as [->|Hne].
  - rewrite list_lookup_insert in Hu by (by eapply lookup_lt_Some). injection Hu as <-. rewrite Hg, Htd. by apply H3.
  - rewrite list_lookup_insert_ne in Hu by done. by apply H3.
Qed.
Lemma step_linv s s' : linv s -> log_steps s s' -> linv s'.
Proof.
  intros (dn & ls & part & Hw & Hil & Hlk & Ho) [i Hs]. unfold log_step in Hs. destruct (ls_threads s !! i) as [[g' p l]|] eqn:Ht; [|discriminate Hs].
  pose proof (proj1 (proj2 (proj2 Hw) i _ Ht)) as Hg. cbn in Hg. subst g'. pose proof (lookup_lt_Some _ _ _ Ht) as Hlt.
  destruct p, l as [|x r]; try discriminate Hs.
  - destruct (ls_locks s !! g) as [i0|] eqn:El; [discriminate Hs|]. injection Hs as <-. unfold locked in Hlk. rewrite El in Hlk. destruct Hlk as [-> Hlk].
    exists dn, ls, []. split; [by eapply written_same|]. split; [done|]. split; [|done]. unfold locked. cbn [ls_locks ls_threads]. rewrite lookup_insert. split.
    + eexists. split; [by apply list_lookup_insert|]. done.
    + intros j u Hu Hj. rewrite list_lookup_insert_ne in Hu by done. by eapply Hlk.
  - injection Hs as <-. unfold locked in Hlk. destruct (ls_locks s !! g) as [i0|] eqn:El; [|destruct Hlk as [_ Hlk]; specialize (Hlk i _ Ht); discriminate Hlk].
    destruct Hlk as [(t & Ht0 & _ & _ & Hp) Hlk]. destruct (decide (i = i0)) as [<-|Hne]; [|specialize (Hlk i _ Ht Hne); discriminate Hlk].
    rewrite Ht in Ht0. injection Ht0 as <-. cbn in Hp. subst part.
    exists dn, ls, x. split; [by eapply written_same|]. split; [done|]. split.
    + unfold locked. cbn [ls_locks ls_threads]. rewrite El. split; [eexists; split; [by apply list_lookup_insert|done]|]. intros j u Hu Hj. rewrite list_lookup_insert_ne in Hu by done. by eapply Hlk.
    + cbn [ls_out]. rewrite Ho. by rewrite app_nil_r.
  - injection Hs as <-. unfold locked in Hlk. destruct (ls_locks s !! g) as [i0|] eqn:El; [|destruct Hlk as [_ Hlk]; specialize (Hlk i _ Ht); discriminate Hlk].
    destruct Hlk as [(t & Ht0 & _ & _ & Hp) Hlk]. destruct (decide (i = i0)) as [<-|Hne]; [|specialize (Hlk i _ Ht Hne); discriminate Hlk].
    rewrite Ht in Ht0. injection Ht0 as <-. cbn in Hp. subst part.
    destruct Hw as (W1 & W2 & W3). destruct (W3 i _ Ht) as (_ & d & Hd & Ha).
    exists (<[i := d ++ [x]]> dn), (ls ++ [x]), []. split.
    { split; [cbn; by rewrite insert_length|]. split; [by rewrite insert_length|]. cbn [ls_threads]. intros j u Hu. destruct (decide (i = j)) as [<-|Hj].
      - rewrite list_lookup_insert in Hu by done. injection Hu as <-. split; [done|]. exists (d ++ [x]). split; [apply list_lookup_insert; by eapply lookup_lt_Some|].
        rewrite Ha. cbn [todo th_at th_lines tail]. by rewrite <- app_assoc.
      - rewrite list_lookup_insert_ne in Hu by done. destruct (W3 j u Hu) as (Hg & d' & Hd' & Ha'). split; [done|]. exists d'. by rewrite list_lookup_insert_ne. }
    split; [by apply interleaving_snoc|]. split.
    + unfold locked. cbn [ls_locks ls_threads]. rewrite El. split; [eexists; split; [by apply list_lookup_insert|done]|]. intros j u Hu Hj. rewrite list_lookup_insert_ne in Hu by done. by eapply Hlk.
    + cbn [ls_out]. rewrite Ho, unlines_snoc, app_nil_r. by rewrite <- app_assoc.
  - injection Hs as <-. unfold locked in Hlk. destruct (ls_locks s !! g) as [i0|] eqn:El; [|destruct Hlk as [_ Hlk]; specialize (Hlk i _ Ht); discriminate Hlk].
    destruct Hlk as [(t & Ht0 & _ & _ & Hp) Hlk]. destruct (decide (i = i0)) as [<-|Hne]; [|specialize (Hlk i _ Ht Hne); discriminate Hlk].
    rewrite Ht in Ht0. injection Ht0 as <-. cbn in Hp. subst part.
    exists dn, ls, []. split; [by eapply written_same|]. split; [done|]. split; [|done]. unfold locked. cbn [ls_locks ls_threads]. rewrite lookup_delete. split; [done|].
    intros j u Hu. destruct (decide (i = j)) as [<-|Hj]; [rewrite list_lookup_insert in Hu by done; by injection Hu as <-|]. rewrite list_lookup_insert_ne in Hu by done. by eapply Hlk.
Qed.
End One.
Lemma start_linv g ts : Forall (fun x => x.1 = g) ts -> linv g (map (fun x => concat (map log_lines x.2)) ts) (log_start ts).
Proof.
  intros HF. exists (map (fun _ => []) ts), [], []. split; [|split; [|split]].
  - split; [cbn; by rewrite !map_length|]. split; [by rewrite !map_length|]. cbn [log_start ls_threads]. intros i t Ht.
    change (map ?f ts) with (f <$> ts) in *. rewrite !list_lookup_fmap in *. destruct (ts !! i) as [[k es]|] eqn:E; [|discriminate Ht]. cbn in Ht. injection Ht as <-. split.
    + exact (proj1 (Forall_lookup _ _) HF i _ E).
    + exists []. done.
  - apply il_nil. apply Forall_forall. intros t Ht. apply elem_of_list_In, in_map_iff in Ht as (x & <- & _). done.
  - unfold locked, log_start. cbn [ls_locks ls_threads]. rewrite lookup_empty. split; [done|]. intros i t Ht. change (map ?f ts) with (f <$> ts) in *. rewrite list_lookup_fmap in Ht.
    destruct (ts !! i) as [x|]; [|discriminate Ht]. cbn in Ht. by injection Ht as <-.
  - done.
Qed.
Lemma linv_reach g ts s : Forall (fun x => x.1 = g) ts -> rtc log_steps (log_start ts) s -> linv g (map (fun x => concat (map log_lines x.2)) ts) s.
Proof.
  intros HF Hr. assert (H : forall a b, rtc log_steps a b -> linv g (map (fun x => concat (map log_lines x.2)) ts) a -> linv g (map (fun x => concat (map log_lines x.2)) ts) b).
  { induction 1 as [|x y z Hxy _ IH]; [done|]. intros Hx. apply IH. by eapply step_linv. }
  eapply H; [exact Hr|]. by apply start_linv.
Qed.

(** C89: goroutines that use one logger, in every schedule, at every moment: what has been written are whole lines, those of each goroutine in the order
    of its calls (the lines it has written are the first ones of all of its lines), and then nothing, or the text of the next line of one goroutine
    without its newline.  Partial: goroutines with loggers of their own for the same writer (below). *)
Theorem C89_whole_lines_partial g ts s : Forall (fun x => x.1 = g) ts -> rtc log_steps (log_start ts) s ->
  exists done_ ls part, ls_out s = unlines ls ++ part /\ interleaving done_ ls /\
    Forall2 (fun x d => exists rest, concat (map log_lines x.2) = d ++ rest) ts done_ /\
    (part = [] \/ exists i x d rest, ts !! i = Some x /\ done_ !! i = Some d /\ concat (map log_lines x.2) = d ++ part :: rest).
Proof.
  intros HF Hr. destruct (linv_reach g ts s HF Hr) as (dn & ls & part & (W1 & W2 & W3) & Hil & Hlk & Ho). exists dn, ls, part. split; [done|]. split; [done|].
  rewrite map_length in W1, W2.
  assert (Hpt : forall i x, ts !! i = Some x -> exists t, ls_threads s !! i = Some t /\ exists d, dn !! i = Some d /\ concat (map log_lines x.2) = d ++ todo t).
  { intros i x Hx. destruct (lookup_lt_is_Some_2 (ls_threads s) i) as [t Ht]; [rewrite W1; by eapply lookup_lt_Some|]. exists t. split; [done|]. destruct (W3 i t Ht) as (_ & d & Hd & Ha). exists d. split; [done|].
    change (map ?f ts) with (f <$> ts) in Ha. rewrite list_lookup_fmap, Hx in Ha. cbn in Ha. by injection Ha. }
  split.
  - apply Forall2_same_length_lookup_2; [done|]. intros i x d Hx Hd. destruct (Hpt i x Hx) as (t & _ & d' & Hd' & Ha). rewrite Hd in Hd'. injection Hd' as <-. by eexists.
  - unfold locked in Hlk. destruct (ls_locks s !! g) as [i|]; [|left; apply Hlk]. destruct Hlk as [(t & Ht & Hne & Hl & ->) _].
    destruct t as [g' p l]. cbn in *. destruct p; [done|by left| |by left]. destruct l as [|x r]; [by left|]. right.
    destruct (lookup_lt_is_Some_2 ts i) as [y Hy]; [rewrite <- W1; by eapply lookup_lt_Some|]. destruct (Hpt i y Hy) as (t & Ht' & d & Hd & Ha). rewrite Ht in Ht'. injection Ht' as <-.
    exists i, y, d, r. split; [done|]. split; [done|]. exact Ha.
Qed.
Print Assumptions C89_whole_lines_partial.

(** The goroutines do not block each other for ever: while one has something to write, one of them can go on; when none can, everything has
    been written. *)
Theorem C89_all_written g ts s : Forall (fun x => x.1 = g) ts -> rtc log_steps (log_start ts) s -> (forall s', ~ log_steps s s') ->
  exists ls, ls_out s = unlines ls /\ interleaving (map (fun x => concat (map log_lines x.2)) ts) ls.
Proof.
  intros HF Hr Hstop. destruct (linv_reach g ts s HF Hr) as (dn & ls & part & (W1 & W2 & W3) & Hil & Hlk & Ho). unfold locked in Hlk.
  destruct (ls_locks s !! g) as [i|] eqn:El.
  { destruct Hlk as [([g' p l] & Ht & Hne & Hl & _) _]. cbn in *. exfalso. destruct l as [|x r]; [done|]. destruct p; [done|..]; eapply Hstop; exists i; unfold log_step; rewrite Ht; reflexivity. }
  destruct Hlk as [-> Hout]. exists ls. rewrite app_nil_r in Ho. split; [done|]. replace (map (fun x => concat (map log_lines x.2)) ts) with dn; [done|].
  apply list_eq. intros i. destruct (ls_threads s !! i) as [[g' p l]|] eqn:Ht.
  - destruct (W3 i _ Ht) as (Hg & d & Hd & Ha). pose proof (Hout i _ Ht) as Hp. cbn in Hg, Hp. subst. unfold todo in Ha. cbn in Ha. rewrite Hd, Ha.
    destruct l as [|x r]; [by rewrite app_nil_r|]. exfalso. eapply Hstop. exists i. unfold log_step. rewrite Ht, El. reflexivity.
  - apply lookup_ge_None in Ht. rewrite (lookup_ge_None_2 dn i) by lia. rewrite lookup_ge_None_2; [done|]. lia.
Qed.
Print Assumptions C89_all_written.

(** What a call writes: the kind, the message and the pairs, if the arguments are pairs of a string and a value; otherwise an error is written
    first, and the message without its arguments. *)
Lemma format_args_ok args kvs : format_args args = Ret kvs <-> exists l, args = concat (map (fun x : bytes * arg => [AStr x.1; x.2]) l) /\ kvs = map (fun x => (x.1, show_arg x.2)) l.
Proof.
  split.
  - revert kvs. induction args as [args IH] using (induction_ltof1 _ (@length arg)). intros kvs Hf.
    destruct args as [|k [|v r]]; cbn in Hf; [injection Hf as <-; by exists []|discriminate Hf|]. destruct (Nat.odd (length r)); [discriminate Hf|]. destruct k as [s|]; [|discriminate Hf].
    destruct (format_args r) as [kv| |] eqn:E; [|discriminate Hf..]. injection Hf as <-. destruct (IH r ltac:(unfold ltof; cbn; lia) kv E) as (l & -> & ->). by exists ((s, v) :: l).
  - intros (l & -> & ->). induction l as [|[k v] l IH]; [done|]. cbn [map concat app]. cbn [format_args]. rewrite IH.
    replace (Nat.odd (length (concat (map (fun x : bytes * arg => [AStr x.1; x.2]) l)))) with false; [done|]. clear IH. induction l as [|x l IH]; [done|]. exact IH.
Qed.
Theorem C89_one_line e l : en_args e = concat (map (fun x : bytes * arg => [AStr x.1; x.2]) l) ->
  log_lines e = [(if en_debug e then B "DEBUG" else B "INFO") ++ B " " ++ en_msg e ++ B " [" ++ join (B " ") (map (fun x => B "{" ++ x.1 ++ B " " ++ show_arg x.2 ++ B "}") l) ++ B "]"].
Proof.
  intros E. unfold log_lines. rewrite (proj2 (format_args_ok _ _) (ex_intro _ l (conj E eq_refl))). unfold log_line, show_kvs, show_list. rewrite map_map. cbn [fst snd]. done.
Qed.
Print Assumptions C89_one_line.
Theorem C89_other_arguments e : (forall l, en_args e <> concat (map (fun x : bytes * arg => [AStr x.1; x.2]) l)) ->
  exists err, log_lines e = [err; (if en_debug e then B "DEBUG" else B "INFO") ++ B " " ++ en_msg e ++ B " []"] /\ exists r, err = B "ERROR " ++ r.
Proof.
  intros Hn. unfold log_lines. destruct (format_args (en_args e)) as [kvs|x|x] eqn:E; [apply format_args_ok in E as (l & El & _); by destruct (Hn l)|..];
  (eexists; split; [reflexivity|by eexists]).
Qed.
Print Assumptions C89_other_arguments.

(** C89 is false for loggers of their own that share a writer, as those of two Ripsrc objects do: lines can be mixed. *)
Theorem C89_two_loggers_refuted e1 e2 x y : log_lines e1 = [x] -> log_lines e2 = [y] ->
  exists s, rtc log_steps (log_start [(0, [e1]); (1, [e2])]) s /\ (forall s', ~ log_steps s s') /\ ls_out s = x ++ y ++ [NL; NL].
Proof.
  intros H1 H2. assert (Hrun : forall sched s s', fold_left (fun m i => match m with Some s => log_step i s | None => None end) sched (Some s) = Some s' -> rtc log_steps s s').
  { induction sched as [|i sched IH]; intros s s' E; cbn in E; [injection E as ->; apply rtc_refl|]. destruct (log_step i s) as [s1|] eqn:Es.
    - eapply rtc_l; [by exists i|]. by apply IH.
    - exfalso. clear -E. induction sched as [|j sched IH]; cbn in E; [discriminate E|auto]. }
  eexists. split; [apply (Hrun [0; 1; 0; 1; 0; 1; 0; 1])|split].
  - unfold log_start. cbn [map fst snd concat app]. rewrite H1, H2. cbn [concat app fold_left log_step ls_threads lookup list_lookup ls_locks insert list_insert ls_out].
    rewrite lookup_empty. cbn [fold_left log_step ls_threads lookup list_lookup ls_locks insert list_insert ls_out]. rewrite lookup_insert_ne by done. rewrite lookup_empty.
    cbn [fold_left log_step ls_threads lookup list_lookup ls_locks insert list_insert ls_out]. reflexivity.
  - intros s' [i Hi]. cbn in Hi. destruct i as [|[|i]]; discriminate Hi.
  - cbn [ls_out]. cbn [app]. by rewrite <- !app_assoc.
Qed.
Print Assumptions C89_two_loggers_refuted.

(** Two goroutines with one logger, one of which passes an argument too few; a run. *)
Definition lg_a : entry := Entry false (B "started") [AStr (B "repo"); AStr (B "x"); AStr (B "n"); AOther (B "3")].
Definition lg_b : entry := Entry true (B "odd") [AStr (B "k")].
Definition lg_steps (sched : list nat) (s : lsys) : lsys := fold_left (fun s i => match log_step i s with Some s' => s' | None => s end) sched s.
Example C89_hypotheses_hold :
  Forall (fun x : nat * list entry => x.1 = 0) [(0, [lg_a]); (0, [lg_b; lg_a])] /\
  log_lines lg_a = [B "INFO started [{repo x} {n 3}]"] /\
  log_lines lg_b = [B "ERROR Logger invalid args passed. Msg: odd Args: [k] Err: len of args not even"; B "DEBUG odd []"] /\
  ls_out (lg_steps [1; 1; 0; 1; 0; 1; 0; 0; 1; 0; 0; 1] (log_start [(0, [lg_a]); (0, [lg_b; lg_a])])) =
    unlines [B "ERROR Logger invalid args passed. Msg: odd Args: [k] Err: len of args not even"; B "INFO started [{repo x} {n 3}]"] /\
  en_args lg_a = concat (map (fun x : bytes * arg => [AStr x.1; x.2]) [(B "repo", AStr (B "x")); (B "n", AOther (B "3"))]) /\
  (forall l, en_args lg_b <> concat (map (fun x : bytes * arg => [AStr x.1; x.2]) l)).
Proof.
  split; [repeat (apply Forall_cons_2; [done|]); apply Forall_nil_2|]. split; [vm_compute; reflexivity|]. split; [vm_compute; reflexivity|]. split; [vm_compute; reflexivity|].
  split; [vm_compute; reflexivity|]. intros [|[k v] l] E; discriminate E.
Qed.
