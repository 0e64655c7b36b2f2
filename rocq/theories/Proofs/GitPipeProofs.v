(** * Reading git's output: proofs for C62, C63 *)
From Verif.Model Require Import Base GoStrings GitPipe.
From Verif.Spec Require Import Text Reading.
From Verif.Proofs Require Import TextLemmas.
From stdpp Require Import relations.
From Coq Require Import Lia.

Section pipe.
  Context {S : Type} (want : S -> option nat) (feed : S -> option bytes -> S) (ok : bool) (out : bytes) (r0 : S).
  Notation got := (got want feed r0).
  Notation step := (pstep want feed ok).
  Notation start := (pipe_start out r0).

  (** What is known in every reachable configuration. *)
  Definition inv (c : pconfig (S := S)) : Prop :=
    exists d n, got (p_reader c) d n /\
      (p_closed c = true -> want (p_reader c) = None) /\
      match p_writer c with
      | WOut rest => out = d ++ rest /\ n = 0
      | WChunk ch rest => out = d ++ ch ++ rest /\ ch <> [] /\ n = 0
      | WEnd => out = d /\ ok = true
      | WCrash => n = 0 /\ ((ok = false /\ out = d) \/ (p_closed c = true /\ exists rest, rest <> [] /\ out = d ++ rest))
      end.
  Lemma inv_start : inv start.
  Proof. exists [], 0. split; [constructor|]. split; [done|]. done. Qed.
  Lemma inv_step c c' : inv c -> step c c' -> inv c'.
  Proof.
    intros (d & n & Hg & Hc & Hw) Hs. destruct Hs as [ch rest r cl Hne|r cl|b ch rest r k Hk Hb Hl|r k Hk|w r Hk Hncr|ch rest r]; cbn [p_writer p_reader p_closed] in *.
    - destruct Hw as [Hw ->]. exists d, 0. done.
    - destruct Hw as [Hw ->]. rewrite app_nil_r in Hw. exists d, 0. split; [done|]. split; [done|]. destruct ok eqn:E; [done|]. split; [done|]. by left.
    - destruct Hw as (Hw & _ & ->). exists (d ++ b), 0. split; [by econstructor|]. split; [done|]. unfold after_read. cbn [p_writer]. destruct ch as [|x ch].
      + rewrite app_nil_r in Hw. by rewrite <- app_assoc.
      + rewrite <- !app_assoc. split; [by rewrite <- app_assoc in Hw|done].
    - exists d, (n + 1). split; [by econstructor|]. done.
    - exists d, n. split; [done|]. split; [done|]. destruct w; [done..|]. done.
    - destruct Hw as (Hw & Hne & ->). exists d, 0. split; [done|]. split; [done|]. split; [done|]. right. split; [done|]. exists (ch ++ rest). split; [|done]. intros Hx. apply app_eq_nil in Hx. tauto.
  Qed.
  Lemma inv_reachable c : rtc step start c -> inv c.
  Proof. intros H. assert (Hi := inv_start). revert Hi. induction H as [|x y z Hxy _ IH]; [done|]. intros Hx. apply IH. by eapply inv_step. Qed.

  Lemma final_cases c : sane_reader want feed r0 -> inv c -> stuck want feed ok c -> p_writer c = WCrash \/ (p_writer c = WEnd /\ p_closed c = true).
  Proof.
    intros Hs (d & n & Hg & Hc & Hw) Hf. destruct (Hs _ _ _ Hg) as [Hpos _]. destruct c as [w r cl]. cbn [p_writer p_reader p_closed] in *. destruct w as [[|x rest]|ch rest| |].
    - exfalso. eapply Hf. apply ps_exit.
    - exfalso. eapply Hf. change (x :: rest) with ([x] ++ rest). by apply ps_chunk.
    - exfalso. destruct Hw as (_ & Hne & _). destruct cl; [eapply Hf; apply ps_broken|]. destruct (want r) as [k|] eqn:E.
      + destruct ch as [|x ch]; [done|]. eapply Hf. change (x :: ch) with ([x] ++ ch). eapply ps_read; [exact E|done|]. cbn. specialize (Hpos k eq_refl). lia.
      + eapply Hf. by apply ps_close.
    - right. split; [done|]. destruct cl; [done|]. exfalso. destruct (want r) as [k|] eqn:E; [eapply Hf; by eapply ps_eof|]. eapply Hf. by apply ps_close.
    - by left.
  Qed.

  (** Executions are finite. *)
  Definition w_pot (w : writer) : nat := match w with WOut rest => 2 * length rest + 2 | WChunk c rest => 2 * length c + 2 * length rest + 1 | WEnd => 1 | WCrash => 0 end.
  Definition r_pot (c : pconfig (S := S)) : nat := if p_closed c then 0 else match want (p_reader c) with Some _ => 2 | None => 1 end.
  Definition pot (c : pconfig (S := S)) : nat := w_pot (p_writer c) + r_pot c.
  Lemma pot_step c c' : sane_reader want feed r0 -> inv c -> step c c' -> pot c' < pot c.
  Proof.
    intros Hs Hi Hst. assert (Hi' := inv_step c c' Hi Hst). destruct Hi as (d & n & Hg & Hc & Hw). unfold pot, r_pot. destruct Hst as [ch rest r cl Hne|r cl|b ch rest r k Hk Hb Hl|r k Hk|w r Hk Hncr|ch rest r]; cbn [p_writer p_reader p_closed w_pot].
    - rewrite app_length. destruct ch; [done|]. cbn. lia.
    - destruct ok; cbn; lia.
    - rewrite Hk. assert (length b > 0) by (destruct b; [done|cbn; lia]). assert ((match want (feed r (Some b)) with Some _ => 2 | None => 1 end) <= 2) by (destruct (want (feed r (Some b))); lia).
      unfold after_read. rewrite app_length. destruct ch; cbn [w_pot length]; lia.
    - rewrite Hk. cbn [p_reader p_writer p_closed] in *. destruct (Hs _ _ _ (got_end _ _ _ _ _ _ _ Hg Hk)) as [_ Hn]. rewrite Hn by lia. lia.
    - rewrite Hk. lia.
    - lia.
  Qed.
  Lemma bounded c k c' : sane_reader want feed r0 -> inv c -> nsteps step k c c' -> k + pot c' <= pot c.
  Proof.
    intros Hs Hi H. induction H as [c|k c c1 c2 H1 _ IH]; [lia|]. assert (Hp := pot_step c c1 Hs Hi H1). specialize (IH (inv_step c c1 Hi H1)). lia.
  Qed.
End pipe.

(** ** The scanner *)
Section scanner.
  Context {C : Type} (take_line : C -> bytes -> option C) (max : N) (Hmax : (0 < max)%N) (c0 : C).
  Notation scanner := (scanner (C := C)).
  Notation handle := (handle take_line).

  Lemma handle_app c ls ls' c' : handle c ls = (c', false) -> handle c (ls ++ ls') = handle c' ls'.
  Proof. revert c. induction ls as [|l ls IH]; intros c; [by intros [= ->]|]. cbn. destruct (take_line c l); [apply IH|done]. Qed.
  Lemma handle_stop c ls ls' c' : handle c ls = (c', true) -> handle c (ls ++ ls') = (c', true).
  Proof. revert c. induction ls as [|l ls IH]; intros c; [done|]. cbn. destruct (take_line c l); [apply IH|done]. Qed.

  Lemma cut_line_some p l r : cut_line p = Some (l, r) -> p = l ++ NL :: r /\ NL ∉ l.
  Proof.
    revert l r. induction p as [|x p IH]; intros l r; [done|]. cbn. case_bool_decide as E; [intros [= <- <-]; split; [by rewrite E|apply not_elem_of_nil]|].
    destruct (cut_line p) as [[l' r']|]; [|done]. intros [= <- <-]. destruct (IH l' r' eq_refl) as [-> Hn]. split; [done|]. apply not_elem_of_cons. split; [congruence|done].
  Qed.
  Lemma cut_line_none p : cut_line p = None -> NL ∉ p.
  Proof.
    induction p as [|x p IH]; [intros _; apply not_elem_of_nil|]. cbn. case_bool_decide as E; [done|]. destruct (cut_line p) as [[l' r']|]; [done|]. intros _. apply not_elem_of_cons. split; [congruence|by apply IH].
  Qed.
  Lemma raw_lines_cons l r : NL ∉ l -> raw_lines (l ++ NL :: r) = l :: raw_lines r.
  Proof.
    induction l as [|x l IH]; intros Hn; [cbn; by rewrite bool_decide_true|]. apply not_elem_of_cons in Hn as [H1 H2]. cbn. rewrite bool_decide_false by congruence. by rewrite IH.
  Qed.
  Lemma raw_lines_last p : NL ∉ p -> p <> [] -> raw_lines p = [p].
  Proof.
    induction p as [|x p IH]; intros Hn Hne; [done|]. apply not_elem_of_cons in Hn as [H1 H2]. cbn. rewrite bool_decide_false by congruence. destruct p as [|y p]; [done|]. by rewrite IH.
  Qed.
  Lemma raw_lines_first p r : NL ∉ p -> p <> [] -> exists l ls, raw_lines (p ++ r) = (p ++ l) :: ls.
  Proof.
    induction p as [|x p IH]; intros Hn Hne; [done|]. apply not_elem_of_cons in Hn as [H1 H2]. cbn. rewrite bool_decide_false by congruence. destruct p as [|y p].
    - cbn. destruct (raw_lines r) as [|l ls]; [by exists [], []|by exists l, ls].
    - destruct IH as (l & ls & ->); [done|done|]. by exists l, ls.
  Qed.
  Definition short (l : bytes) : Prop := (N.of_nat (length l) < max)%N.
  Lemma scan_lines ls r : Forall (fun l => NL ∉ l /\ short l) ls -> scan max (unlines ls ++ r) = (map drop_cr ls ++ (scan max r).1, (scan max r).2).
  Proof.
    unfold scan, unlines. induction 1 as [|l ls [Hl Hs] _ IH]; [cbn [map concat app]; by rewrite <- surjective_pairing|]. cbn [map concat]. rewrite <- !app_assoc. cbn [app]. rewrite raw_lines_cons by done. cbn [scan_raw].
    unfold short in Hs. replace (max <=? N.of_nat (length l))%N with false by (symmetry; apply N.leb_gt; lia). rewrite IH. done.
  Qed.

  Definition sc_inv (s : scanner) (d : bytes) (n : nat) : Prop :=
    match s with
    | ScRun c p cap => n = 0 /\ length p < cap /\ (N.of_nat cap <= max)%N /\
        exists ls, d = unlines ls ++ p /\ NL ∉ p /\ Forall (fun l => NL ∉ l /\ short l) ls /\ handle c0 (map drop_cr ls) = (c, false)
    | ScStop c ScTooLong => n = 0 /\
        exists ls p, d = unlines ls ++ p /\ NL ∉ p /\ (N.of_nat (length p) = max)%N /\ Forall (fun l => NL ∉ l /\ short l) ls /\ handle c0 (map drop_cr ls) = (c, false)
    | ScStop c ScAbort => handle c0 (scan max d).1 = (c, true) /\ (n = 0 -> exists ls l rest, d = unlines ls ++ l ++ NL :: rest /\ NL ∉ l /\ short l /\ Forall (fun l => NL ∉ l /\ short l) ls /\
        handle c0 (map drop_cr ls) = (c, false) /\ take_line c (drop_cr l) = None)
    | ScStop c ScEof => 0 < n /\ handle c0 (scan max d).1 = (c, false) /\ (scan max d).2 = false
    end.
  Lemma unlines_app a b : unlines (a ++ b) = unlines a ++ unlines b.
  Proof. unfold unlines. by rewrite map_app, concat_app. Qed.
  Lemma room_inv c p cap ls : (N.of_nat cap <= max)%N -> length p <= cap -> NL ∉ p -> Forall (fun l => NL ∉ l /\ short l) ls -> handle c0 (map drop_cr ls) = (c, false) ->
    sc_inv (make_room max c p cap) (unlines ls ++ p) 0.
  Proof.
    intros Hcap Hp Hn Hls Hh. unfold make_room. destruct (decide _) as [E|E].
    - destruct (N.leb_spec max (N.of_nat cap)) as [Hm|Hm].
      + cbn. split; [done|]. exists ls, p. split; [done|]. split; [done|]. split; [lia|]. done.
      + cbn [sc_inv]. split; [done|]. split; [destruct (decide (cap = 0)); lia|]. split; [rewrite N2Nat.id; lia|]. by exists ls.
    - cbn [sc_inv]. split; [done|]. split; [lia|]. split; [done|]. by exists ls.
  Qed.
  Lemma pending_inv fuel c p cap ls : length p <= fuel -> (N.of_nat cap <= max)%N -> length p <= cap -> Forall (fun l => NL ∉ l /\ short l) ls -> handle c0 (map drop_cr ls) = (c, false) ->
    sc_inv (scan_pending take_line max fuel c p cap) (unlines ls ++ p) 0.
  Proof.
    revert c p ls. induction fuel as [|fuel IH]; intros c p ls Hf Hcap Hp Hls Hh.
    - destruct p; [|cbn in Hf; lia]. cbn [scan_pending]. apply room_inv; [done|done|apply not_elem_of_nil|done|done].
    - cbn [scan_pending]. destruct (cut_line p) as [[l r]|] eqn:E; [|apply room_inv; [done|done|by apply cut_line_none|done|done]].
      apply cut_line_some in E as [-> Hl]. rewrite app_length in Hf, Hp. cbn in Hf, Hp. assert (Hs : short l) by (unfold short; lia). destruct (take_line c (drop_cr l)) as [c'|] eqn:Et.
      + replace (unlines ls ++ l ++ NL :: r) with (unlines (ls ++ [l]) ++ r) by (rewrite unlines_app; unfold unlines at 2; cbn; by rewrite app_nil_r, <- !app_assoc).
        apply IH; [lia|done|lia|apply Forall_app; split; [done|constructor; [done|constructor]]|]. rewrite map_app. rewrite (handle_app _ _ _ c Hh). cbn. by rewrite Et.
      + cbn [sc_inv]. split.
        * rewrite scan_lines by done. cbn [fst]. rewrite (handle_app _ _ _ c Hh). unfold scan. rewrite raw_lines_cons by done. cbn [scan_raw]. unfold short in Hs.
          replace (max <=? N.of_nat (length l))%N with false by (symmetry; apply N.leb_gt; lia). destruct (scan_raw max (raw_lines r)). cbn. by rewrite Et.
        * intros _. exists ls, l, r. done.
  Qed.
  Notation s_want := (scanner_want (C := C)).
  Notation s_feed := (scanner_feed take_line max).
  Notation s_start := (scanner_start max c0).
  Lemma sc_got s d n : got s_want s_feed s_start s d n -> sc_inv s d n.
  Proof.
    induction 1 as [|s d b k Hg IH Hk Hb Hl|s d n k Hg IH Hk].
    - unfold scanner_start. change (@nil ascii) with (unlines [] ++ []) at 2. apply room_inv; [lia|cbn; lia|apply not_elem_of_nil|constructor|done].
    - destruct s as [c p cap|c why]; [|done]. cbn in Hk. injection Hk as <-. destruct IH as (_ & Hp & Hcap & ls & -> & Hn & Hls & Hh). cbn [scanner_feed].
      rewrite <- app_assoc. apply pending_inv; [done|done|rewrite app_length; lia|done|done].
    - destruct s as [c p cap|c why]; [|done]. destruct IH as (-> & Hp & Hcap & ls & -> & Hn & Hls & Hh). cbn [scanner_feed].
      assert (Hsc : p <> [] -> scan max p = ([drop_cr p], false)).
      { intros Hne. unfold scan. rewrite raw_lines_last by done. cbn. replace (max <=? N.of_nat (length p))%N with false by (symmetry; apply N.leb_gt; lia). done. }
      destruct p as [|x p].
      + cbn [sc_inv]. split; [lia|]. rewrite scan_lines by done. cbn. by rewrite app_nil_r.
      + specialize (Hsc ltac:(done)). destruct (take_line c (drop_cr (x :: p))) as [c'|] eqn:Et; cbn [sc_inv].
        * split; [lia|]. rewrite scan_lines, Hsc by done. cbn [fst snd]. split; [|done]. rewrite (handle_app _ _ _ c Hh). cbn [Reading.handle]. by rewrite Et.
        * split; [|lia]. rewrite scan_lines, Hsc by done. cbn [fst snd]. rewrite (handle_app _ _ _ c Hh). cbn [Reading.handle]. by rewrite Et.
  Qed.
  Lemma scanner_sane : sane_reader s_want s_feed s_start.
  Proof.
    intros s d n Hg. apply sc_got in Hg. destruct s as [c p cap|c why]; [|done]. destruct Hg as (-> & Hp & _). split; [|lia]. intros k [= <-]. lia.
  Qed.
  (** What the caller has when the scanner has stopped, in terms of the whole output. *)
  Lemma scanner_stopped c why d n rest : got s_want s_feed s_start (ScStop c why) d n -> (0 < n -> rest = []) ->
    match why with
    | ScEof => rest = [] /\ handle c0 (scan max (d ++ rest)).1 = (c, false) /\ (scan max (d ++ rest)).2 = false
    | ScTooLong => handle c0 (scan max (d ++ rest)).1 = (c, false) /\ (scan max (d ++ rest)).2 = true
    | ScAbort => handle c0 (scan max (d ++ rest)).1 = (c, true)
    end.
  Proof.
    intros Hg Hr. apply sc_got in Hg. destruct why; cbn [sc_inv] in Hg.
    - destruct Hg as (Hn & H1 & H2). rewrite (Hr Hn), app_nil_r. done.
    - destruct Hg as (-> & ls & p & -> & Hn & Hp & Hls & Hh). rewrite <- app_assoc, scan_lines by done. unfold scan.
      destruct (raw_lines_first p rest Hn) as (l & ls' & ->); [intros ->; cbn in Hp; lia|]. cbn [scan_raw]. rewrite app_length.
      replace (max <=? N.of_nat (length p + length l))%N with true by (symmetry; apply N.leb_le; lia). cbn [fst snd]. by rewrite app_nil_r.
    - destruct Hg as [H1 H2]. destruct n as [|n]; [|rewrite Hr by lia; by rewrite app_nil_r]. destruct (H2 eq_refl) as (ls & l & r & -> & Hn & Hs & Hls & Hh & Ht).
      rewrite <- !app_assoc. cbn [app]. rewrite scan_lines by done. cbn [fst]. rewrite (handle_app _ _ _ c Hh). unfold scan. rewrite raw_lines_cons by done. cbn [scan_raw]. unfold short in Hs.
      replace (max <=? N.of_nat (length l))%N with false by (symmetry; apply N.leb_gt; lia). destruct (scan_raw max (raw_lines (r ++ rest))). cbn. by rewrite Ht.
  Qed.
  (** The scanner that gives up on a long line has not read the whole of an output that ends with a newline. *)
  Lemma too_long_unread c d n x : got s_want s_feed s_start (ScStop c ScTooLong) d n -> d <> x ++ [NL].
  Proof.
    intros Hg. apply sc_got in Hg as (-> & ls & p & -> & Hn & Hp & _). intros E. destruct p as [|y p _] using rev_ind; [cbn in Hp; lia|].
    rewrite app_assoc in E. apply app_inj_tail in E as [_ ->]. apply Hn. apply elem_of_app. right. by left.
  Qed.

Lemma plain_lines ls : Forall (plain_line max) ls -> map drop_cr ls = ls /\ Forall (fun l => NL ∉ l /\ short l) ls.
Proof.
  induction 1 as [|l ls (H1 & H2 & H3) _ [IH1 IH2]]; [split; [done|constructor]|]. split; [cbn; by rewrite drop_cr_no_cr, IH1|constructor; [done|done]].
Qed.
Lemma stopped_when_complete ok out c : rtc (pstep s_want s_feed ok) (pipe_start out s_start) c -> stuck s_want s_feed ok c -> ok = true ->
  exists cc why d n rest, p_reader c = ScStop cc why /\ got s_want s_feed s_start (ScStop cc why) d n /\ out = d ++ rest /\ (0 < n -> rest = []) /\
    (p_writer c = WCrash -> rest <> []) /\ (p_writer c = WCrash \/ (p_writer c = WEnd /\ p_closed c = true /\ rest = [])).
Proof.
  intros H Hst Hok. assert (Hs := scanner_sane). assert (Hi := inv_reachable _ _ _ _ _ c H). assert (Hf := final_cases _ _ _ _ _ c Hs Hi Hst).
  destruct Hi as (d & n & Hg & Hcl & Hw). assert (Hcc : p_closed c = true).
  { destruct Hf as [E|[_ ?]]; [|done]. rewrite E in Hw. destruct Hw as [_ [[? _]|[? _]]]; [congruence|done]. }
  specialize (Hcl Hcc). destruct (p_reader c) as [cc p cap|cc why]; [done|]. destruct Hf as [E|[E _]]; rewrite E in Hw.
  - destruct Hw as [-> [[? _]|(_ & rest & Hne & ->)]]; [congruence|]. exists cc, why, d, 0, rest. split; [done|]. split; [done|]. split; [done|]. split; [lia|]. split; [done|]. by left.
  - destruct Hw as [-> _]. exists cc, why, d, n, []. rewrite app_nil_r. split; [done|]. split; [done|]. split; [done|]. split; [done|]. split; [congruence|]. by right.
Qed.
End scanner.
