(** * The generator of the exclusion list *)
From Verif.Model Require Import Base GoStrings FileInfo GenIgnore.
From Verif.Spec Require Import Text Regex Exclusion.
From Verif.Proofs Require Import TextLemmas TrimProofs.

(** ** The reader, by comparison of characters *)
Notation is c d := (bool_decide (c = d%char)).
Ltac all_chars c := destruct c as [[] [] [] [] [] [] [] []]; reflexivity.
Lemma set_rest_cons c s : set_rest (c :: s) =
  if is c "]" then Some ([], s) else if is c "-" || is c "[" then None
  else if is c "\" && match s with [] => false | _ => true end then
    match s with
    | [] => None
    | c2 :: r => if alphanumeric c2 then None else match set_rest r with Some (cs, r') => Some (c2 :: cs, r') | None => None end
    end
  else match set_rest s with Some (cs, r') => Some (c :: cs, r') | None => None end.
Proof. destruct s; all_chars c. Qed.
Lemma set_of_cons c s : set_of (c :: s) =
  if is c "]" || is c "^" then None
  else if is c "-" then match set_rest s with Some (cs, r') => Some ("-"%char :: cs, r') | None => None end else set_rest (c :: s).
Proof. all_chars c. Qed.
Lemma suffixed_cons a c s : suffixed a (c :: s) = if is c "?" then (ROpt a, s) else if is c "*" then (RStar a, s) else (a, c :: s).
Proof. all_chars c. Qed.
Lemma alts_of_S n s : alts_of (S n) s =
  match seq_of n s with
  | Some (a, c :: r) => if is c "|" then match alts_of n r with Some (b, r') => Some (RAlt a b, r') | None => None end else Some (a, c :: r)
  | x => x
  end.
Proof. cbn [alts_of]. destruct (seq_of n s) as [[a [|c r]]|]; [reflexivity| |reflexivity]. all_chars c. Qed.
Lemma seq_of_cons n c s : seq_of (S n) (c :: s) =
  if is c "|" || is c ")" then Some (REps, c :: s)
  else match atom_of n (c :: s) with
       | Some (a, r) => let '(a, r) := suffixed a r in match seq_of n r with Some (b, r') => Some (RSeq a b, r') | None => None end
       | None => None
       end.
Proof. all_chars c. Qed.
Lemma atom_of_cons n c s : atom_of (S n) (c :: s) =
  if is c "(" then match alts_of n s with Some (a, d :: r') => if is d ")" then Some (a, r') else None | _ => None end
  else if is c "[" then match set_of s with Some (cs, r') => Some (RSet cs, r') | None => None end
  else if is c "\" then match s with c2 :: r' => if alphanumeric c2 then None else Some (RChr c2, r') | [] => None end
  else if is c "^" then Some (RBegin, s)
  else if is c "$" then Some (REnd, s)
  else if is c "." then Some (RAny, s)
  else if is c "*" || is c "?" || is c "+" || is c "{" then None
  else Some (RChr c, s).
Proof.
  destruct (decide (c = "("%char)) as [->|Hc].
  - cbn [atom_of]. rewrite bool_decide_true by reflexivity. destruct (alts_of n s) as [[a [|d r]]|]; [reflexivity| |reflexivity]. all_chars d.
  - rewrite (bool_decide_false _ Hc). revert Hc. destruct c as [[] [] [] [] [] [] [] []]; try reflexivity. intros []; reflexivity.
Qed.
Global Opaque set_rest set_of suffixed.

(** ** Reading an expression that is followed by something *)
Lemma set_rest_ext s t : forall cs r, set_rest s = Some (cs, r) -> set_rest (s ++ t) = Some (cs, r ++ t).
Proof.
  induction s as [s IH] using (well_founded_induction (Wf_nat.well_founded_ltof _ (@length ascii))).
  assert (IH' : forall s', length s' < length s -> forall cs r, set_rest s' = Some (cs, r) -> set_rest (s' ++ t) = Some (cs, r ++ t)) by exact IH.
  clear IH. intros cs r. destruct s as [|c s]; [discriminate|].
  cbn [app]. rewrite !set_rest_cons. destruct (is c "]"); [intros [= <- <-]; reflexivity|].
  destruct (is c "-" || is c "["); [discriminate|].
  destruct (is c "\"); cbn [andb].
  - destruct s as [|c2 s]; [intros H; discriminate H|]. cbn [app]. destruct (alphanumeric c2); [discriminate|].
    destruct (set_rest s) as [[cs' r']|] eqn:E; [|discriminate]. apply IH' in E; [|cbn; lia]. rewrite E. intros [= <- <-]. reflexivity.
  - destruct (set_rest s) as [[cs' r']|] eqn:E; [|discriminate]. apply IH' in E; [|cbn; lia]. rewrite E. intros [= <- <-]. reflexivity.
Qed.
Lemma set_of_ext s t cs r : set_of s = Some (cs, r) -> set_of (s ++ t) = Some (cs, r ++ t).
Proof.
  destruct s as [|c s]; [discriminate|]. cbn [app]. rewrite !set_of_cons. destruct (is c "]" || is c "^"); [discriminate|].
  destruct (is c "-").
  - destruct (set_rest s) as [[cs' r']|] eqn:E; [|discriminate]. rewrite (set_rest_ext _ t _ _ E). intros [= <- <-]. reflexivity.
  - apply (set_rest_ext (c :: s) t).
Qed.

(** A text that ends a sequence. *)
Definition stops (t : bytes) : Prop := exists c r, t = c :: r /\ (c = "|"%char \/ c = ")"%char).
Lemma suffixed_ext a s t b r : suffixed a s = (b, r) -> s <> [] \/ stops t \/ t = [] -> suffixed a (s ++ t) = (b, r ++ t).
Proof.
  destruct s as [|c s]; cbn [app].
  - intros H [Hn|[(c & u & -> & Hc)| ->]].
    + by destruct Hn.
    + rewrite suffixed_cons. change (suffixed a []) with (a, [] : bytes) in H. injection H as <- <-.
      destruct Hc as [-> | ->]; reflexivity.
    + rewrite H, app_nil_r. reflexivity.
  - intros H _. rewrite suffixed_cons in H. rewrite suffixed_cons.
    destruct (is c "?"); [injection H as <- <-; reflexivity|]. destruct (is c "*"); injection H as <- <-; reflexivity.
Qed.
Lemma suffixed_rest a s b r : suffixed a s = (b, r) -> r <> [] -> s <> [].
Proof. intros H Hr ->. change (suffixed a []) with (a, [] : bytes) in H. injection H as <- <-. by apply Hr. Qed.

Lemma ext n :
  (forall s t a r, alts_of n s = Some (a, r) -> r <> [] \/ (exists u, t = ")"%char :: u) -> alts_of n (s ++ t) = Some (a, r ++ t)) /\
  (forall s t a r, seq_of n s = Some (a, r) -> r <> [] \/ stops t -> seq_of n (s ++ t) = Some (a, r ++ t)) /\
  (forall s t a r, atom_of n s = Some (a, r) -> atom_of n (s ++ t) = Some (a, r ++ t)).
Proof.
  induction n as [|n (IHa & IHs & IHt)]; [repeat split; intros; discriminate|]. split; [|split].
  - intros s t a r. rewrite !alts_of_S. destruct (seq_of n s) as [[b r1]|] eqn:Es; [|discriminate]. destruct r1 as [|c r1].
    + intros [= <- <-] [Hr|[u ->]]; [by destruct Hr|]. rewrite (IHs _ (")"%char :: u) _ _ Es); [reflexivity|]. right. exists ")"%char, u. auto.
    + intros H Hr. rewrite (IHs _ t _ _ Es) by (left; discriminate). cbn [app]. destruct (is c "|").
      * destruct (alts_of n r1) as [[b2 r2]|] eqn:Ea; [|discriminate]. injection H as <- <-. rewrite (IHa _ t _ _ Ea Hr). reflexivity.
      * injection H as <- <-. reflexivity.
  - intros s t a r. destruct s as [|c s].
    + change (seq_of (S n) []) with (Some (REps, [] : bytes)). cbn [app]. intros [= <- <-] [Hr|(c & u & -> & Hc)]; [by destruct Hr|]. rewrite seq_of_cons. destruct Hc as [-> | ->]; reflexivity.
    + cbn [app]. rewrite !seq_of_cons. destruct (is c "|" || is c ")"); [intros [= <- <-] _; reflexivity|].
      destruct (atom_of n (c :: s)) as [[b r1]|] eqn:Ea; [|discriminate]. apply (IHt _ t) in Ea. cbn [app] in Ea. rewrite Ea.
      destruct (suffixed b r1) as [b' r2] eqn:Eb. destruct (seq_of n r2) as [[b3 r3]|] eqn:Es; [|discriminate].
      intros [= <- <-] Hr.
      assert (Hr1 : r3 <> [] -> r1 <> []).
      { intros H3. destruct r2 as [|d r2].
        - destruct n; [discriminate Es|]. cbn [seq_of] in Es. injection Es as <- <-. by destruct H3.
        - exact (suffixed_rest _ _ _ _ Eb ltac:(discriminate)). }
      rewrite (suffixed_ext _ _ t _ _ Eb) by (destruct Hr as [Hr|Hr]; [left; auto|right; left; exact Hr]).
      rewrite (IHs _ t _ _ Es Hr). reflexivity.
  - intros s t a r. destruct s as [|c s]; [discriminate|]. cbn [app]. rewrite !atom_of_cons.
    destruct (is c "(").
    { destruct (alts_of n s) as [[b [|d r1]]|] eqn:Ea; [discriminate| |discriminate].
      rewrite (IHa _ t _ _ Ea) by (left; discriminate). cbn [app]. destruct (is d ")"); [|discriminate]. intros [= <- <-]. reflexivity. }
    destruct (is c "[").
    { destruct (set_of s) as [[cs r1]|] eqn:Ea; [|discriminate]. rewrite (set_of_ext _ t _ _ Ea). intros [= <- <-]. reflexivity. }
    destruct (is c "\").
    { destruct s as [|c2 s]; [discriminate|]. cbn [app]. destruct (alphanumeric c2); [discriminate|]. intros [= <- <-]. reflexivity. }
    destruct (is c "^"); [intros [= <- <-]; reflexivity|]. destruct (is c "$"); [intros [= <- <-]; reflexivity|].
    destruct (is c "."); [intros [= <- <-]; reflexivity|].
    destruct (is c "*" || is c "?" || is c "+" || is c "{"); [discriminate|]. intros [= <- <-]. reflexivity.
Qed.

Lemma mono n :
  (forall s x, alts_of n s = Some x -> alts_of (S n) s = Some x) /\
  (forall s x, seq_of n s = Some x -> seq_of (S n) s = Some x) /\
  (forall s x, atom_of n s = Some x -> atom_of (S n) s = Some x).
Proof.
  induction n as [|n (IHa & IHs & IHt)]; [repeat split; intros; discriminate|]. split; [|split].
  - intros s x. rewrite (alts_of_S n s), (alts_of_S (S n) s). destruct (seq_of n s) as [[b r1]|] eqn:Es; [|discriminate].
    rewrite (IHs _ _ Es). destruct r1 as [|c r1]; [auto|]. destruct (is c "|"); [|auto].
    destruct (alts_of n r1) as [[b2 r2]|] eqn:Ea; [|discriminate]. rewrite (IHa _ _ Ea). auto.
  - intros s x. destruct s as [|c s]; [auto|]. rewrite (seq_of_cons n), (seq_of_cons (S n)). destruct (is c "|" || is c ")"); [auto|].
    destruct (atom_of n (c :: s)) as [[b r1]|] eqn:Ea; [|discriminate]. rewrite (IHt _ _ Ea). destruct (suffixed b r1) as [b' r2].
    destruct (seq_of n r2) as [y|] eqn:Es; [|discriminate]. rewrite (IHs _ _ Es). auto.
  - intros s x. destruct s as [|c s]; [discriminate|]. rewrite (atom_of_cons n), (atom_of_cons (S n)). destruct (is c "("); [|auto].
    destruct (alts_of n s) as [y|] eqn:Ea; [|discriminate]. rewrite (IHa _ _ Ea). auto.
Qed.
Lemma alts_mono n m s x : n <= m -> alts_of n s = Some x -> alts_of m s = Some x.
Proof. induction 1 as [|m Hm IH]; [auto|]. intros H. apply mono. auto. Qed.
Lemma seq_mono n m s x : n <= m -> seq_of n s = Some x -> seq_of m s = Some x.
Proof. induction 1 as [|m Hm IH]; [auto|]. intros H. apply mono. auto. Qed.

(** Two expressions, one after the other, with a bar between them. *)
Lemma alts_bar n : forall e r, alts_of n e = Some (r, []) -> forall m rest r2 r', alts_of m rest = Some (r2, r') ->
  exists r3, alts_of (n + m) (e ++ "|"%char :: rest) = Some (r3, r') /\ (forall s i j, matches s r3 i j <-> matches s r i j \/ matches s r2 i j).
Proof.
  induction n as [|n IH]; [discriminate|]. intros e r He m rest r2 r' Hm. rewrite alts_of_S in He.
  destruct (seq_of n e) as [[a r1]|] eqn:Es; [|discriminate].
  assert (Hs : seq_of (n + m) (e ++ "|"%char :: rest) = Some (a, r1 ++ "|"%char :: rest)).
  { apply (seq_mono n); [lia|]. apply (proj1 (proj2 (ext n))); [exact Es|]. right. exists "|"%char, rest. auto. }
  cbn [plus]. rewrite alts_of_S, Hs. destruct r1 as [|c r1].
  - injection He as ->. cbn [app]. rewrite bool_decide_true by reflexivity. rewrite (alts_mono m (n + m) _ _ ltac:(lia) Hm).
    exists (RAlt r r2). split; [reflexivity|]. intros s i j. split.
    + inversion 1; subst; auto.
    + intros [H|H]; [by apply m_alt_l|by apply m_alt_r].
  - cbn [app]. destruct (is c "|"); [|discriminate He].
    destruct (alts_of n r1) as [[b r4]|] eqn:Ea; [|discriminate]. injection He as <- ->.
    destruct (IH _ _ Ea _ _ _ _ Hm) as (r3 & H3 & Hr). rewrite H3. exists (RAlt a r3). split; [reflexivity|].
    intros s i j. split.
    + inversion 1 as [| | | | | | |? ? ? ? H1|? ? ? ? H1| | | |]; subst; [left; by apply m_alt_l|].
      apply Hr in H1 as [H1|H1]; [left; by apply m_alt_r|by right].
    + intros [H|H].
      * inversion H as [| | | | | | |? ? ? ? H1|? ? ? ? H1| | | |]; subst; [by apply m_alt_l|]. apply m_alt_r, Hr. auto.
      * apply m_alt_r, Hr. auto.
Qed.

Lemma join_alts es : es <> [] -> Forall readable es ->
  exists r, alts_of (3 * length (join (B "|") es) + 3) (join (B "|") es) = Some (r, []) /\
    (forall s i j, matches s r i j <-> exists e r', e ∈ es /\ regex e = Some r' /\ matches s r' i j).
Proof.
  induction es as [|e es IH]; [by intros []|]. intros _ Hr. inversion Hr as [|? ? He Hes]; subst. destruct He as [r Hre].
  assert (Ha : alts_of (3 * length e + 3) e = Some (r, [])).
  { unfold regex in Hre. destruct (alts_of (3 * length e + 3) e) as [[a [|]]|]; [|discriminate|discriminate]. by injection Hre as ->. }
  destruct es as [|e2 es].
  - cbn [join]. exists r. split; [exact Ha|]. intros s i j. split.
    + intros H. exists e, r. split; [left|auto].
    + intros (e' & r' & Hin & Hr' & H). apply elem_of_list_singleton in Hin as ->. rewrite Hre in Hr'. by injection Hr' as <-.
  - destruct (IH ltac:(discriminate) Hes) as (r2 & H2 & Hm2).
    destruct (alts_bar _ _ _ Ha _ _ _ _ H2) as (r3 & H3 & Hm3).
    change (join (B "|") (e :: e2 :: es)) with (e ++ "|"%char :: join (B "|") (e2 :: es)).
    exists r3. split.
    + apply (alts_mono (3 * length e + 3 + (3 * length (join (B "|") (e2 :: es)) + 3))); [|exact H3].
      rewrite app_length. cbn [length]. lia.
    + intros s i j. rewrite Hm3, Hm2. split.
      * intros [H|(e' & r' & Hin & Hr' & H)]; [exists e, r; split; [left|auto]|]. exists e', r'. split; [by right|auto].
      * intros (e' & r' & Hin & Hr' & H). apply elem_of_cons in Hin as [->|Hin].
        -- left. rewrite Hre in Hr'. by injection Hr' as <-.
        -- right. exists e', r'. auto.
Qed.

Lemma group_alts n w r : alts_of n w = Some (r, []) -> alts_of (S (S (S n))) (B "(" ++ w ++ B ")") = Some (RSeq r REps, []).
Proof.
  intros H. rewrite alts_of_S. change (B "(" ++ w ++ B ")") with ("("%char :: w ++ B ")"). rewrite seq_of_cons.
  replace (is "("%char "|" || is "("%char ")") with false by reflexivity. rewrite atom_of_cons. rewrite bool_decide_true by reflexivity.
  rewrite (proj1 (ext n) w (B ")") r [] H) by (right; by exists []).
  change ([] ++ B ")") with (B ")"). cbn [B list_ascii_of_string]. rewrite bool_decide_true by reflexivity.
  change (suffixed r []) with (r, [] : bytes). cbn iota beta. change (seq_of (S n) []) with (Some (REps, [] : bytes)). reflexivity.
Qed.
Lemma generate_ok text : parse_file text <> [] -> Forall readable (parse_file text) ->
  forall s, matched_by (generate text) s <-> exists e, e ∈ parse_file text /\ matched_by e s.
Proof.
  intros Hne Hr s. destruct (join_alts _ Hne Hr) as (r & Ha & Hm).
  assert (Hg : regex (generate text) = Some (RSeq r REps)).
  { unfold regex, generate. pose proof (group_alts _ _ _ Ha) as Hgr.
    apply (alts_mono _ (3 * length (B "(" ++ join (B "|") (parse_file text) ++ B ")") + 3)) in Hgr.
    - rewrite Hgr. reflexivity.
    - rewrite !app_length. cbn [B list_ascii_of_string length]. lia. }
  unfold matched_by. rewrite Hg. split.
  - intros (r0 & [= <-] & i & j & H). inversion H as [| | | | | |? ? ? k ? H1 H2| | | | | |]; subst. inversion H2; subst.
    apply Hm in H1 as (e & r' & Hin & Hr' & H1). exists e. split; [exact Hin|]. exists r'. split; [exact Hr'|]. exists i, j. exact H1.
  - intros (e & Hin & r' & Hr' & i & j & H). exists (RSeq r REps). split; [reflexivity|]. exists i, j.
    assert (H' : matches s r i j) by (apply Hm; exists e, r'; auto). apply (m_seq _ _ _ _ j); [exact H'|]. apply m_eps.
    clear -H'. induction H'; try (match goal with H : _ !! _ = Some _ |- _ => apply lookup_lt_Some in H end); lia.
Qed.

(** ** The lines the generator uses *)
Lemma read_strings_split s : forall acc, 
  (NL ∉ s /\ read_strings acc s = []) \/
  (exists u b, s = u ++ NL :: b /\ NL ∉ u /\ read_strings acc s = (acc ++ u) :: read_strings [] b).
Proof.
  induction s as [|a s IH]; intros acc; cbn [read_strings].
  - left. split; [by apply not_elem_of_nil|reflexivity].
  - case_bool_decide as Ha.
    + subst a. right. exists [], s. split; [reflexivity|]. split; [by apply not_elem_of_nil|]. by rewrite app_nil_r.
    + destruct (IH (acc ++ [a])) as [[Hn ->]|(u & b & -> & Hu & ->)].
      * left. split; [|reflexivity]. by apply not_elem_of_cons.
      * right. exists (a :: u), b. split; [reflexivity|]. split; [by apply not_elem_of_cons|]. by rewrite <- (assoc_L app).
Qed.
Lemma cut_at_newline (u u' b b' : bytes) : NL ∉ u -> NL ∉ u' -> u ++ NL :: b = u' ++ NL :: b' -> u = u' /\ b = b'.
Proof.
  revert u'; induction u as [|c u IH]; intros [|c' u'] Hu Hu'; cbn [app]; intros [=].
  - auto.
  - subst. exfalso. apply Hu'. left.
  - subst. exfalso. apply Hu. left.
  - subst. apply not_elem_of_cons in Hu, Hu'. destruct (IH u') as [-> ->]; [tauto..|auto|auto].
Qed.
Lemma ended_line_cons (u b l : bytes) : NL ∉ u -> ended_line (u ++ NL :: b) l <-> l = u \/ ended_line b l.
Proof.
  intros Hu. split.
  - intros (x & y & He & Hx & Hl). destruct Hx as [->|[x' ->]].
    + cbn [app] in He. left. symmetry. exact (proj1 (cut_at_newline _ _ _ _ Hu Hl He)).
    + right. destruct (decide (NL ∈ x')) as [Hin|Hin].
      * apply elem_of_list_split_l in Hin as (x1 & x2 & -> & Hx1). rewrite <- !(assoc_L app) in He. cbn [app] in He.
        apply cut_at_newline in He as [-> ->]; [|exact Hu|exact Hx1]. exists (x2 ++ [NL]), y.
        split; [by rewrite <- !(assoc_L app)|]. split; [right; by exists x2|exact Hl].
      * rewrite <- !(assoc_L app) in He. cbn [app] in He. apply cut_at_newline in He as [-> ->]; [|exact Hu|exact Hin].
        exists [], y. split; [reflexivity|]. split; [by left|exact Hl].
  - intros [->|(x & y & -> & Hx & Hl)].
    + exists [], b. split; [reflexivity|]. split; [by left|exact Hu].
    + exists (u ++ NL :: x), y. split; [by rewrite <- !(assoc_L app)|]. split; [|exact Hl]. right.
      destruct Hx as [->|[x' ->]]; [by exists u|]. exists (u ++ NL :: x'). by rewrite <- !(assoc_L app).
Qed.
Lemma read_strings_iff s l : l ∈ read_strings [] s <-> ended_line s l.
Proof.
  induction s as [s IH] using (well_founded_induction (Wf_nat.well_founded_ltof _ (@length ascii))).
  destruct (read_strings_split s []) as [[Hn ->]|(u & b & -> & Hu & ->)].
  - split; [by intros ?%not_elem_of_nil|]. intros (x & y & -> & _ & _). exfalso. apply Hn. rewrite !elem_of_app. right. right. left.
  - cbn [app]. rewrite elem_of_cons, IH, ended_line_cons; [reflexivity|exact Hu|]. unfold Wf_nat.ltof. rewrite app_length. cbn [length]. lia.
Qed.
Lemma parse_file_iff text e : e ∈ parse_file text <-> exists l, ended_line text l /\ pattern_of l = Some e.
Proof.
  unfold parse_file. rewrite elem_of_list_omap. split.
  - intros (l & Hl & He). exists l. by rewrite <- read_strings_iff.
  - intros (l & Hl & He). exists l. by rewrite read_strings_iff.
Qed.

(** ** The pattern of a line *)
Lemma replace_none c new s : c ∉ s -> replace_all c new s = s.
Proof.
  induction s as [|a s IH]; [reflexivity|]. intros [Ha Hs]%not_elem_of_cons. cbn [replace_all].
  rewrite bool_decide_false by congruence. cbn [app]. by rewrite IH.
Qed.
Lemma replace_dots s : replace_all "." (B "\.") s = escaped s.
Proof.
  unfold escaped. induction s as [|a s IH]; [reflexivity|]. cbn [replace_all map concat]. rewrite IH.
  case_bool_decide; destruct (decide (a = "."%char)); [reflexivity|done|done|reflexivity].
Qed.
Lemma index_none c s : c ∉ s -> index_byte c s = None.
Proof.
  induction s as [|a s IH]; [reflexivity|]. intros [Ha Hs]%not_elem_of_cons. cbn [index_byte].
  rewrite bool_decide_false by congruence. by rewrite IH.
Qed.
Lemma pattern_of_line l : pattern_line l -> pattern_of l = Some (escaped l).
Proof.
  intros (Hnl & Hodd & Hbare & c & r & Hl & Hc).
  assert (Hnot : forall d, d ∈ [SP; TAB; CR; "011"%char; "012"%char; "#"%char; "*"%char] -> d ∉ l) by (intros d Hd Hin; exact (Hodd d Hin Hd)).
  assert (Ht : trim_space l = l) by by apply trim_bare.
  assert (Hst : "*"%char ∉ escaped l).
  { rewrite <- replace_dots. assert (H : "*"%char ∉ l) by (apply Hnot; set_solver). clear -H. induction l as [|a l IH]; [exact H|].
    apply not_elem_of_cons in H. cbn [replace_all]. apply not_elem_of_app. split; [|tauto]. case_bool_decide; [cbn; set_solver|].
    rewrite elem_of_list_singleton. tauto. }
  assert (Hsh : "#"%char ∉ l) by (apply Hnot; set_solver).
  assert (Htab : TAB ∉ l) by (apply Hnot; set_solver).
  unfold pattern_of. rewrite Ht, (index_none _ _ Hsh). rewrite Hl at 1. rewrite !bool_decide_false.
  - cbn [orb]. unfold format_line. rewrite replace_dots, (replace_none _ _ _ Hst). reflexivity.
  - rewrite Hl in Htab. apply not_elem_of_cons in Htab. intros E; subst c. tauto.
  - exact Hc.
  - rewrite Hl in Hsh. apply not_elem_of_cons in Hsh. intros E; subst c. tauto.
Qed.

(** ** The file of the repository *)
Lemma generated_list : generate custom_patterns = ignore_source.
Proof. vm_compute. reflexivity. Qed.
Definition is_readable (e : bytes) : bool := match regex e with Some _ => true | None => false end.
Lemma custom_readable : Forall readable (parse_file custom_patterns).
Proof.
  assert (H : forallb is_readable (parse_file custom_patterns) = true) by (vm_compute; reflexivity).
  rewrite forallb_forall in H. apply Forall_forall. intros e He. apply elem_of_list_In, H in He. unfold is_readable in He. unfold readable.
  destruct (regex e) as [r|]; [by exists r|discriminate].
Qed.
Definition odd_charb (c : ascii) : bool := existsb (fun d => bool_decide (c = d)) [SP; TAB; CR; "011"%char; "012"%char; "#"%char; "*"%char].
Definition line_ok (l : bytes) : bool :=
  match l with
  | [] => true
  | c :: _ => if bool_decide (c = "#"%char) then true
              else negb (bool_decide (c = "!"%char)) && forallb (fun c => negb (odd_charb c) && solid c) l
  end.
Lemma custom_lines_ok : forallb line_ok (read_strings [] custom_patterns) = true.
Proof. vm_compute. reflexivity. Qed.
Lemma custom_lines l e : ended_line custom_patterns l -> pattern_of l = Some e -> pattern_line l.
Proof.
  intros Hl He. pose proof custom_lines_ok as H. rewrite forallb_forall in H.
  specialize (H l). rewrite <- elem_of_list_In, read_strings_iff in H. specialize (H Hl). destruct Hl as (_ & _ & _ & _ & Hnl).
  split; [exact Hnl|]. destruct l as [|c l]; [discriminate He|]. cbn [line_ok] in H. case_bool_decide as Hc.
  - exfalso. subst c. revert He. unfold pattern_of.
    assert (exists r, trim_space ("#"%char :: l) = "#"%char :: r) as [r ->]; [|discriminate].
    destruct (proj2 (trimmed_iff ("#"%char :: l) _) eq_refl) as (a & b & E & Hab & _). pose proof white_not_solid as Hws.
    assert (Hsh : solid "#"%char = true) by reflexivity. apply Forall_app in Hab as [Ha Hb].
    destruct Ha as [|w a Hw _]; [|exfalso; pose proof (white_nonempty w Hw); specialize (Hws w Hw); destruct w as [|x w]; [done|]; apply Forall_inv in Hws; cbn in E; congruence].
    destruct (trim_space ("#"%char :: l)) as [|x t]; [|cbn in E; injection E as <- _; by eexists].
    destruct Hb as [|w b Hw _]; [done|]. exfalso. pose proof (white_nonempty w Hw). specialize (Hws w Hw). destruct w as [|x w]; [done|]. apply Forall_inv in Hws. cbn in E. congruence.
  - apply andb_true_iff in H as [H1 H2]. split.
    + intros d Hd Ho. rewrite forallb_forall in H2. specialize (H2 d). rewrite <- elem_of_list_In in H2. specialize (H2 Hd).
      apply andb_true_iff in H2 as [H2 _]. apply negb_true_iff in H2. unfold odd_charb in H2. rewrite (proj2 (existsb_exists _ _)) in H2; [discriminate|].
      exists d. split; [by apply elem_of_list_In|by apply bool_decide_eq_true].
    + split; [|exists c, l; split; [reflexivity|]; apply negb_true_iff, bool_decide_eq_false in H1; exact H1].
      apply bare_solid. apply Forall_forall. intros d Hd. rewrite forallb_forall in H2. apply elem_of_list_In, H2 in Hd. by apply andb_true_iff in Hd as [_ Hd].
Qed.
Lemma custom_listed p : matched_by ignore_source p <-> exists l, ended_line custom_patterns l /\ pattern_line l /\ matched_by (escaped l) p.
Proof.
  rewrite <- generated_list. rewrite (generate_ok custom_patterns); [|vm_compute; discriminate|exact custom_readable]. split.
  - intros (e & He & Hm). apply parse_file_iff in He as (l & Hl & He). pose proof (custom_lines l e Hl He) as Hp.
    exists l. split; [exact Hl|]. split; [exact Hp|]. rewrite (pattern_of_line l Hp) in He. by injection He as <-.
  - intros (l & Hl & Hp & Hm). exists (escaped l). split; [|exact Hm]. apply parse_file_iff. exists l. split; [exact Hl|]. by apply pattern_of_line.
Qed.
