(** * C62, C63, C11: reading git's output through the pipe

    [pstep want feed ok] are the steps of the goroutine that runs git and of the reader, in any order and with any sizes of the pieces written
    and read; [pipe_start out r0]: git is going to print [out]; [ok]: git exits with status 0. *)
From Verif.Model Require Import Base GoStrings GitPipe.
From Verif.Spec Require Import Text Reading.
From Verif.Proofs Require Import TextLemmas GitPipeProofs.
From stdpp Require Import relations.
From Coq Require Import Lia.

Section C62.
Context {S : Type} (want : S -> option nat) (feed : S -> option bytes -> S) (ok : bool) (out : bytes) (r0 : S).
Notation step := (pstep want feed ok).
Notation start := (pipe_start out r0).

(** At every moment the reader has had a prefix of git's output, in order; it sees the end of the file only if git succeeded, and after
    all of the output. *)
Theorem C62_prefix_and_end c : rtc step start c ->
  exists d n, got want feed r0 (p_reader c) d n /\ d `prefix_of` out /\ (0 < n -> ok = true /\ d = out).
Proof.
  intros H. destruct (inv_reachable want feed ok out r0 c H) as (d & n & Hg & _ & Hw). exists d, n. split; [exact Hg|].
  destruct (p_writer c) as [rest|ch rest| |].
  - destruct Hw as [-> ->]. split; [apply prefix_app_r; reflexivity|lia].
  - destruct Hw as (-> & _ & ->). split; [apply prefix_app_r; reflexivity|lia].
  - destruct Hw as [-> Hok]. split; [reflexivity|]. intros _. by split.
  - destruct Hw as [-> Hw]. split; [|lia]. destruct Hw as [[_ ->]|(_ & rest & _ & ->)]; [reflexivity|apply prefix_app_r; reflexivity].
Qed.
(** A failing git ends every execution in a crash of the program; no reader is told that the output is complete. *)
Theorem C62_failure_is_crash c : sane_reader want feed r0 -> ok = false -> rtc step start c ->
  (stuck want feed ok c -> p_writer c = WCrash) /\ exists d, got want feed r0 (p_reader c) d 0.
Proof.
  intros Hs Hok H. assert (Hi := inv_reachable want feed ok out r0 c H). split.
  - intros Hst. destruct (final_cases want feed ok out r0 c Hs Hi Hst) as [?|[Hw _]]; [done|]. destruct Hi as (d & n & _ & _ & Hw'). rewrite Hw in Hw'. destruct Hw' as [_ ?]. congruence.
  - destruct Hi as (d & n & Hg & _ & Hw). exists d. destruct (p_writer c) as [rest|ch rest| |].
    + by destruct Hw as [_ ->].
    + by destruct Hw as (_ & _ & ->).
    + destruct Hw as [_ ?]. congruence.
    + by destruct Hw as [-> _].
Qed.
(** A reader that closes the pipe before it has had all of the output makes the program crash; an execution that does not end in a crash
    gave the reader all of it. *)
Theorem C62_all_or_crash c : sane_reader want feed r0 -> rtc step start c -> stuck want feed ok c ->
  p_writer c = WCrash \/ (ok = true /\ exists n, got want feed r0 (p_reader c) out n /\ p_closed c = true).
Proof.
  intros Hs H Hst. assert (Hi := inv_reachable want feed ok out r0 c H). destruct (final_cases want feed ok out r0 c Hs Hi Hst) as [?|[Hw Hc]]; [by left|].
  right. destruct Hi as (d & n & Hg & _ & Hw'). rewrite Hw in Hw'. destruct Hw' as [-> Hok]. split; [done|]. by exists n.
Qed.
(** A reader that reads to the end has no crash, and ends with all of the output and the end of the file. *)
Theorem C62_patient_reader c : sane_reader want feed r0 -> ok = true -> (forall r d, got want feed r0 r d 0 -> want r <> None) -> rtc step start c ->
  p_writer c <> WCrash /\ (stuck want feed ok c -> exists n, 0 < n /\ got want feed r0 (p_reader c) out n /\ p_closed c = true).
Proof.
  intros Hs Hok Hp H. assert (Hi := inv_reachable want feed ok out r0 c H). destruct Hi as (d & n & Hg & Hcl & Hw). split.
  - intros E. rewrite E in Hw. destruct Hw as [-> Hw]. destruct Hw as [[? _]|(Hc & _)]; [congruence|]. apply (Hp _ _ Hg). by apply Hcl.
  - intros Hst. destruct (final_cases want feed ok out r0 c Hs ltac:(exists d, n; done) Hst) as [E|[E Hc]]; rewrite E in Hw.
    + exfalso. destruct Hw as [-> Hw]. destruct Hw as [[? _]|(Hc & _)]; [congruence|]. apply (Hp _ _ Hg). by apply Hcl.
    + destruct Hw as [-> _]. exists n. split; [|done]. destruct n as [|n]; [|lia]. exfalso. apply (Hp _ _ Hg). by apply Hcl.
Qed.
(** No execution goes on for ever. *)
Theorem C62_executions_end k c : sane_reader want feed r0 -> nsteps step k start c -> k <= 2 * length out + 4.
Proof.
  intros Hs H. apply (bounded want feed ok out r0 _ _ _ Hs (inv_start want feed ok out r0)) in H. unfold pot in H at 2. cbn [pipe_start p_writer w_pot] in H.
  assert (r_pot want (pipe_start out r0) <= 2); [|lia]. unfold r_pot. cbn [pipe_start p_closed p_reader]. destruct (want r0); lia.
Qed.
End C62.
Print Assumptions C62_prefix_and_end.
Print Assumptions C62_failure_is_crash.
Print Assumptions C62_all_or_crash.
Print Assumptions C62_patient_reader.
Print Assumptions C62_executions_end.

Section C63.
(** A caller that handles lines one by one, reading git's output with a bufio.Scanner whose limit is [max]. *)
Context {C : Type} (take_line : C -> bytes -> option C) (max : N) (Hmax : (0 < max)%N) (c0 : C).
Notation s_want := (scanner_want (C := C)).
Notation s_feed := (scanner_feed take_line max).
Notation s_start := (scanner_start max c0).
Notation execution ok out := (rtc (pstep s_want s_feed ok) (pipe_start out s_start)).
Notation complete ok := (stuck s_want s_feed ok).
(** However git's output is cut into pieces, the caller handles exactly the lines of the output, one after the other, and the program does not
    crash. *)
Theorem C63_lines_handled ls t out c c' : Forall (plain_line max) ls -> t = [] \/ plain_line max t -> out = unlines ls ++ t ->
  handle take_line c0 (ls ++ if decide (t = []) then [] else [t]) = (c', false) ->
  execution true out c -> p_writer c <> WCrash /\ (complete true c -> p_reader c = ScStop c' ScEof /\ p_writer c = WEnd /\ p_closed c = true).
Proof.
  intros Hls Ht -> Hh H. destruct (plain_lines max ls Hls) as [Hd Hls'].
  assert (Hscan : scan max (unlines ls ++ t) = (ls ++ if decide (t = []) then [] else [t], false)).
  { rewrite scan_lines by done. rewrite Hd. unfold scan. destruct (decide (t = [])) as [->|Hne]; [done|]. destruct Ht as [?|(Hn & Hcr & Hlen)]; [done|].
    rewrite raw_lines_last by done. cbn. replace (max <=? N.of_nat (length t))%N with false by (symmetry; apply N.leb_gt; lia). cbn. by rewrite drop_cr_no_cr. }
  assert (Hstop : forall cc why d n rest, got s_want s_feed s_start (ScStop cc why) d n -> unlines ls ++ t = d ++ rest -> (0 < n -> rest = []) -> ScStop cc why = ScStop c' ScEof /\ rest = []).
  { intros cc why d n rest Hg E Hr. assert (Hx := scanner_stopped take_line max Hmax c0 cc why d n rest Hg Hr). rewrite <- E, Hscan in Hx. cbn [fst snd] in Hx. rewrite Hh in Hx.
    destruct why; [|by destruct Hx|done]. destruct Hx as (-> & Hx & _). injection Hx as <-. done. }
  split.
  - intros E. assert (Hi := inv_reachable _ _ _ _ _ c H). destruct Hi as (d & n & Hg & Hcl & Hw). rewrite E in Hw. destruct Hw as [-> [[? _]|(Hc & rest & Hne & Ho)]]; [done|].
    specialize (Hcl Hc). destruct (p_reader c) as [cc p cap|cc why]; [done|]. destruct (Hstop cc why d 0 rest Hg Ho ltac:(lia)) as [_ ?]. done.
  - intros Hst. destruct (stopped_when_complete take_line max Hmax c0 true _ c H Hst eq_refl) as (cc & why & d & n & rest & -> & Hg & Ho & Hr & Hcr & Hf).
    destruct (Hstop cc why d n rest Hg Ho Hr) as [-> ->]. split; [done|]. destruct Hf as [E|(E & Hc & _)]; [by destruct (Hcr E)|done].
Qed.
(** What the caller ends with is the same for all ways to cut the output and all schedules, whatever the output is. *)
Theorem C63_chunks_do_not_matter out c1 c2 : execution true out c1 -> complete true c1 -> execution true out c2 -> complete true c2 -> p_reader c1 = p_reader c2.
Proof.
  intros H1 S1 H2 S2.
  destruct (stopped_when_complete take_line max Hmax c0 true out c1 H1 S1 eq_refl) as (cc1 & why1 & d1 & n1 & r1 & -> & Hg1 & E1 & Hr1 & _).
  destruct (stopped_when_complete take_line max Hmax c0 true out c2 H2 S2 eq_refl) as (cc2 & why2 & d2 & n2 & r2 & -> & Hg2 & E2 & Hr2 & _).
  assert (X1 := scanner_stopped take_line max Hmax c0 cc1 why1 d1 n1 r1 Hg1 Hr1). assert (X2 := scanner_stopped take_line max Hmax c0 cc2 why2 d2 n2 r2 Hg2 Hr2).
  rewrite <- E1 in X1. rewrite <- E2 in X2. destruct why1, why2; repeat match goal with H : _ /\ _ |- _ => destruct H end; congruence.
Qed.
(** A line of [max] bytes or more: the caller gets the lines before it, and if the output ends with a newline the program crashes. *)
Theorem C63_long_line_crash ls l rest c c' : Forall (plain_line max) ls -> no_nl l -> (max <= N.of_nat (length l))%N ->
  handle take_line c0 ls = (c', false) ->
  execution true (unlines (ls ++ l :: rest)) c -> complete true c -> p_reader c = ScStop c' ScTooLong /\ p_writer c = WCrash.
Proof.
  intros Hls Hl Hlen Hh H Hst. destruct (plain_lines max ls Hls) as [Hd Hls'].
  destruct (stopped_when_complete take_line max Hmax c0 true _ c H Hst eq_refl) as (cc & why & d & n & r & -> & Hg & E & Hr & _ & Hf).
  assert (X := scanner_stopped take_line max Hmax c0 cc why d n r Hg Hr). rewrite <- E in X.
  assert (Hscan : scan max (unlines (ls ++ l :: rest)) = (ls, true)).
  { rewrite unlines_app, scan_lines by done. rewrite Hd. unfold scan, unlines. cbn [map concat]. rewrite <- app_assoc. cbn [app]. rewrite raw_lines_cons by done. cbn [scan_raw].
    replace (max <=? N.of_nat (length l))%N with true by (symmetry; apply N.leb_le; lia). cbn. by rewrite app_nil_r. }
  rewrite Hscan in X. cbn [fst snd] in X. rewrite Hh in X. destruct why.
  - by destruct X as (_ & _ & ?).
  - destruct X as [X _]. injection X as <-. split; [done|]. destruct Hf as [?|(_ & _ & ->)]; [done|]. exfalso. rewrite app_nil_r in E.
    assert (Hn : exists x, unlines (ls ++ l :: rest) = x ++ [NL]).
    { clear. destruct (exists_last (l := ls ++ l :: rest)) as (q & y & ->); [by destruct ls|].
      exists (unlines q ++ y). rewrite unlines_app. unfold unlines at 2. cbn. by rewrite app_nil_r, app_assoc. }
    destruct Hn as [x Hx]. apply (too_long_unread take_line max Hmax c0 c' d n x Hg). congruence.
  - done.
Qed.
End C63.
Print Assumptions C63_lines_handled.
Print Assumptions C63_chunks_do_not_matter.
Print Assumptions C63_long_line_crash.

(** ** The callers in this package

    The patch log (C12-C16: [log_run] on the whole output) and the metadata log (C45: [run_meta] on the whole output) are read this way; what
    is known about them on the whole output holds for every execution. *)
From Verif.Model Require Import LogParser CommitMeta.

Definition log_take (s : lparser) (l : bytes) : option lparser := match lp_line s l with Ret s' => Some s' | _ => None end.
Definition log_finish (s : lparser) : list lcommit := match lp_state s with LNotStarted => lp_out s | _ => lp_out (lp_end_commit s) end.

Theorem C63_patch_log_streams out c : let want := scanner_want (C := lparser) in let feed := scanner_feed log_take max_line in
  rtc (pstep want feed true) (pipe_start out (scanner_start max_line lp_init)) c -> stuck want feed true c ->
  exists s why, p_reader c = ScStop s why /\
    match why with
    | ScEof => log_run out = (log_finish s, Ret tt)
    | ScTooLong => exists e, log_run out = (lp_out s, Err e)
    | ScAbort => (log_run out).1 = lp_out s /\ (log_run out).2 <> Ret tt
    end.
Proof.
  intros want feed H Hst. assert (Hh : forall ts s, match lp_lines s ts with (s', Ret _) => handle log_take s ts = (s', false) | (s', _) => handle log_take s ts = (s', true) end).
  { induction ts as [|l ts IH]; intros s; [done|]. cbn [lp_lines handle]. unfold log_take at 1 3 5. destruct (lp_line s l) as [s'| |]; [apply IH|done|done]. }
  destruct (stopped_when_complete log_take max_line ltac:(done) lp_init true out c H Hst eq_refl) as (s & why & d & n & r & -> & Hg & E & Hr & _).
  assert (X := scanner_stopped log_take max_line ltac:(done) lp_init s why d n r Hg Hr). rewrite <- E in X. exists s, why. split; [done|].
  unfold log_run. destruct (scan max_line out) as [ts e]. cbn [fst snd] in X. specialize (Hh ts lp_init). destruct (lp_lines lp_init ts) as [s' o]. destruct o as [[]|m|m]; rewrite Hh in X.
  - destruct why; [|destruct X as [X ->]; injection X as ->; by eexists|done]. destruct X as (_ & X & ->). injection X as ->. unfold log_finish. by destruct (lp_state s).
  - destruct why; [by destruct X as (_ & ? & _)|by destruct X|]. injection X as ->. done.
  - destruct why; [by destruct X as (_ & ? & _)|by destruct X|]. injection X as ->. done.
Qed.

Section meta.
Context {T : Type} (zero_time : T) (parse_date : bytes -> option T).
Definition meta_take (p : mparser T) (l : bytes) : option (mparser T) := match parse_meta_line zero_time parse_date p l with Ret p' => Some p' | _ => None end.
Theorem C63_metadata_log_streams out c : let want := scanner_want (C := mparser T) in let feed := scanner_feed meta_take default_max in
  rtc (pstep want feed true) (pipe_start out (scanner_start default_max (MParser [] None 0 SHeader))) c -> stuck want feed true c ->
  exists p why, p_reader c = ScStop p why /\
    match why with
    | ScEof | ScTooLong => run_meta zero_time parse_date out = (mp_sent p ++ pending (mp_commit p), Ret tt)
    | ScAbort => (run_meta zero_time parse_date out).1 = mp_sent p /\ (run_meta zero_time parse_date out).2 <> Ret tt
    end.
Proof.
  intros want feed H Hst.
  assert (Hh : forall ts p, match (parse_meta_lines zero_time parse_date p ts) with
    | (cs, Ret _) => exists p', handle meta_take p ts = (p', false) /\ cs = mp_sent p' ++ pending (mp_commit p')
    | (cs, _) => exists p', handle meta_take p ts = (p', true) /\ cs = mp_sent p' end).
  { induction ts as [|l ts IH]; intros s; [by exists s|]. cbn [parse_meta_lines handle]. unfold meta_take at 1 3 5. destruct (parse_meta_line zero_time parse_date s l) as [s'| |]; [apply IH|by exists s|by exists s]. }
  destruct (stopped_when_complete meta_take default_max ltac:(done) (MParser [] None 0 SHeader) true out c H Hst eq_refl) as (s & why & d & n & r & -> & Hg & E & Hr & _).
  assert (X := scanner_stopped meta_take default_max ltac:(done) (MParser [] None 0 SHeader) s why d n r Hg Hr). rewrite <- E in X. exists s, why. split; [done|].
  unfold run_meta. specialize (Hh (scan default_max out).1 (MParser [] None 0 SHeader)). destruct (parse_meta_lines _ _ _ _) as [cs o]. destruct o as [[]|m|m]; destruct Hh as (p' & Hh & ->); rewrite Hh in X.
  - destruct why; [|destruct X as [X _]; by injection X as ->|done]. destruct X as (_ & X & _). by injection X as ->.
  - destruct why; [by destruct X as (_ & ? & _)|by destruct X|]. injection X as ->. done.
  - destruct why; [by destruct X as (_ & ? & _)|by destruct X|]. injection X as ->. done.
Qed.
(** C11: a line of 64 KB or more in the metadata log (which ends with a newline if its last entry has changes).  The call returns what came before the line with
    no error (see [C11_metadata_log_truncated_refuted]); the program then crashes in every execution. *)
Theorem C11_metadata_log_crash ls l rest p c : let want := scanner_want (C := mparser T) in let feed := scanner_feed meta_take default_max in
  Forall (plain_line default_max) ls -> no_nl l -> (65536 <= N.of_nat (length l))%N ->
  handle meta_take (MParser [] None 0 SHeader) ls = (p, false) ->
  rtc (pstep want feed true) (pipe_start (unlines (ls ++ l :: rest)) (scanner_start default_max (MParser [] None 0 SHeader))) c -> stuck want feed true c ->
  p_writer c = WCrash /\ p_reader c = ScStop p ScTooLong.
Proof.
  intros want feed H1 H2 H3 H4 H5 H6. destruct (C63_long_line_crash meta_take default_max ltac:(done) _ ls l rest c p H1 H2 H3 H4 H5 H6). done.
Qed.
End meta.
Print Assumptions C63_patch_log_streams.
Print Assumptions C63_metadata_log_streams.
Print Assumptions C11_metadata_log_crash.

(** ** Concrete executions *)

(** A reader that collects lines, with a limit of 8 bytes. *)
Definition collect (c : list bytes) (l : bytes) : option (list bytes) := Some (c ++ [l]).
Notation cw := (scanner_want (C := list bytes)).
Notation cf := (scanner_feed collect 8).
Example C62_hypotheses_hold : sane_reader cw cf (scanner_start 8 []).
Proof. by apply scanner_sane. Qed.
(** "ab\ncd" in the pieces "a", "b\nc", "d": both lines are collected, and nothing can happen after it. *)
Example C63_hypotheses_hold :
  let out := B "ab" ++ NL :: B "cd" in
  let c := PConfig WEnd (ScStop [B "ab"; B "cd"] ScEof) true in
  out = unlines [B "ab"] ++ B "cd" /\ Forall (plain_line 8) [B "ab"] /\ plain_line 8 (B "cd") /\
  rtc (pstep cw cf true) (pipe_start out (scanner_start 8 [])) c /\ stuck cw cf true c.
Proof.
  intros out c. split; [reflexivity|].
  assert (Hp : forall a b : ascii, a <> NL -> b <> NL -> b <> CR -> plain_line 8 [a; b]).
  { intros a b Ha Hb Hc. split; [unfold no_nl; rewrite !not_elem_of_cons; split; [congruence|split; [congruence|apply not_elem_of_nil]]|]. split; [|done].
    intros u E. destruct u as [|x [|y u]]; injection E; intros; try congruence. destruct u; cbn in *; congruence. }
  split; [constructor; [apply Hp; done|constructor]|]. split; [apply Hp; done|]. split.
  - eapply rtc_l; [apply (ps_chunk _ _ _ (B "a") (B "b" ++ NL :: B "cd")); done|].
    eapply rtc_l; [apply (ps_read _ _ _ (B "a") [] _ _ 8); [vm_compute; reflexivity|done|vm_compute; lia]|].
    eapply rtc_l; [apply (ps_chunk _ _ _ (B "b" ++ NL :: B "cd") []); done|].
    eapply rtc_l; [apply (ps_read _ _ _ (B "b" ++ NL :: B "c") (B "d") _ _ 7); [vm_compute; reflexivity|done|vm_compute; lia]|].
    eapply rtc_l; [apply (ps_read _ _ _ (B "d") [] _ _ 7); [vm_compute; reflexivity|done|vm_compute; lia]|].
    eapply rtc_l; [apply ps_exit|]. eapply rtc_l; [apply (ps_eof _ _ _ _ 6); vm_compute; reflexivity|].
    eapply rtc_l; [apply ps_close; [vm_compute; reflexivity|done]|].
    match goal with |- rtc _ ?a _ => let b := eval vm_compute in a in change a with b end. apply rtc_refl.
  - intros c' H. inversion H.
Qed.
(** The same with a line that is too long: a crash. *)
Example C63_long_line_hypotheses_hold :
  let out := unlines [B "ab"; B "12345678"] in
  let c := PConfig WCrash (ScStop [B "ab"] ScTooLong) true in
  rtc (pstep cw cf true) (pipe_start out (scanner_start 8 [])) c /\ stuck cw cf true c.
Proof.
  intros out c. split.
  - eapply rtc_l; [apply (ps_chunk _ _ _ out []); done|].
    eapply rtc_l; [apply (ps_read _ _ _ (B "ab" ++ NL :: B "1") (B "2345678" ++ [NL]) _ _ 8); [vm_compute; reflexivity|done|vm_compute; lia]|].
    eapply rtc_l; [apply (ps_read _ _ _ (B "2345678") [NL] _ _ 7); [vm_compute; reflexivity|done|vm_compute; lia]|].
    eapply rtc_l; [apply ps_close; [vm_compute; reflexivity|done]|].
    eapply rtc_l; [apply ps_broken|].
    match goal with |- rtc _ ?a _ => let b := eval vm_compute in a in change a with b end. apply rtc_refl.
  - intros c' H. inversion H.
Qed.
(** Git failing after "a": the reader never sees the end. *)
Example C62_failure_hypotheses_hold : let c := PConfig WCrash (ScRun [] (B "a") 8) false in
  rtc (pstep cw cf false) (pipe_start (B "a") (scanner_start 8 [])) c.
Proof.
  intros c. eapply rtc_l; [apply (ps_chunk _ _ _ (B "a") []); done|].
  eapply rtc_l; [apply (ps_read _ _ _ (B "a") [] _ _ 8); [vm_compute; reflexivity|done|vm_compute; lia]|].
  eapply rtc_l; [apply ps_exit|]. match goal with |- rtc _ ?a _ => let b := eval vm_compute in a in change a with b end. apply rtc_refl.
Qed.
