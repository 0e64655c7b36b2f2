(** * The text of a record's line: proofs for C103 *)
From Verif.Model Require Import Base GoStrings CommitMeta CodeInfo Commands CodeCommand RecordLine.
From Verif.Spec Require Import Text LineReading.
From Verif.Proofs Require Import TextLemmas.
From Coq Require Import Lia.

(** A separator whose first character is not repeated in it ends a text that it does not occur in. *)
Lemma sep_aux (c : ascii) t x d r r' : c ∉ t -> ~ occurs (c :: t) (x ++ d) -> (c :: t) ++ r = d ++ (c :: t) ++ r' -> d = [].
Proof.
  intros Hc Ho E. destruct d as [|a d]; [reflexivity|]. exfalso.
  destruct (decide (length (c :: t) <= length (a :: d))) as [Hl|Hl].
  - apply Ho. assert (K : exists e, a :: d = (c :: t) ++ e) by (exists (drop (length (c :: t)) (a :: d)); pose proof (f_equal (take (length (c :: t))) E) as E1; rewrite take_app, take_app_le in E1 by exact Hl; rewrite E1 at 1; by rewrite take_drop).
    destruct K as (e & ->). by exists x, e.
  - change (c :: t ++ r = a :: d ++ (c :: t) ++ r') in E. injection E as -> E. cbn [length] in Hl.
    pose proof (f_equal (fun l => l !! length d) E) as E1. rewrite (lookup_app_r d) in E1 by lia. rewrite Nat.sub_diag in E1. cbn [lookup list_lookup app] in E1.
    rewrite lookup_app_l in E1 by lia. apply Hc. by eapply elem_of_list_lookup_2.
Qed.
Lemma sep_inj (c : ascii) t x x' r r' : c ∉ t -> ~ occurs (c :: t) x -> ~ occurs (c :: t) x' -> x ++ (c :: t) ++ r = x' ++ (c :: t) ++ r' -> x = x' /\ r = r'.
Proof.
  intros Hc Hx Hx' E. assert (K : x = x'); [|subst x'; apply app_inv_head in E; split; [reflexivity|by apply app_inv_head in E]].
  destruct (decide (length x <= length x')) as [Hl|Hl].
  - assert (D : exists d, x' = x ++ d) by (exists (drop (length x) x'); pose proof (f_equal (take (length x)) E) as E1; rewrite take_app, take_app_le in E1 by exact Hl; rewrite E1 at 1; by rewrite take_drop).
    destruct D as (d & ->). rewrite <-app_assoc in E. apply app_inv_head in E. rewrite (sep_aux c t x d r r' Hc Hx' E). by rewrite app_nil_r.
  - assert (D : exists d, x = x' ++ d) by (exists (drop (length x') x); pose proof (f_equal (take (length x')) (eq_sym E)) as E1; rewrite take_app, take_app_le in E1 by lia; rewrite E1 at 1; by rewrite take_drop).
    destruct D as (d & ->). rewrite <-app_assoc in E. apply app_inv_head in E. symmetry in E. rewrite (sep_aux c t x' d r' r Hc Hx E). by rewrite app_nil_r.
Qed.
Lemma not_occurs c t x : c ∉ x -> ~ occurs (c :: t) x.
Proof. intros Hc (a & b & ->). apply Hc. apply elem_of_app. right. apply elem_of_app. left. apply elem_of_cons. by left. Qed.

Lemma number_show z : number_text z = (if (z <? 0)%Z then B "-" else []) ++ show (Z.abs_N z).
Proof. reflexivity. Qed.
Lemma show_inj a b : show a = show b -> a = b.
Proof. intros H. pose proof (atoi_show a) as Ha. rewrite H, atoi_show in Ha. injection Ha. lia. Qed.
Lemma show_not c n : is_digit c = false -> c ∉ show n.
Proof. intros H. apply digits_not_elem; [exact H|apply show_digits]. Qed.
Lemma number_inj z z' : number_text z = number_text z' -> z = z'.
Proof.
  rewrite !number_show. assert (X : forall a b, B "-" ++ show a = show b -> False).
  { intros a b E. pose proof (show_not "-"%char b eq_refl) as Hb. destruct (show b) as [|c r]; [discriminate|]. injection E as <- _. apply Hb. apply elem_of_cons. by left. }
  intros H. destruct (Z.ltb_spec z 0) as [Hz|Hz], (Z.ltb_spec z' 0) as [Hz'|Hz'].
  - apply app_inv_head in H. apply show_inj in H. lia.
  - exfalso. by apply (X _ _ H).
  - exfalso. symmetry in H. by apply (X _ _ H).
  - apply show_inj in H. lia.
Qed.
Lemma number_not c z : is_digit c = false -> c <> "-"%char -> c ∉ number_text z.
Proof.
  intros H Hm. rewrite number_show. apply not_elem_of_app. split; [|by apply show_not]. destruct (z <? 0)%Z; [|apply not_elem_of_nil].
  intros K. apply elem_of_cons in K as [K|K]; [contradiction|by apply elem_of_nil in K].
Qed.
Lemma status_inj s s' : status_text s = status_text s' -> s = s'.
Proof. by destruct s, s'. Qed.

Section Line.
Context {T L : Type} (lt : L -> bytes).
Lemma line_numbers dir (r : bresult T L) l : record_line dir r = Ret l -> ln_numbers l = printed_numbers r.
Proof. unfold record_line. destruct (_ <? _); [discriminate|]. destruct (printed_status r); [|discriminate..]. by intros [= <-]. Qed.
(** The line with its numbers, piece by piece. *)
Lemma line_pieces m (l : rline L) a b c d e : ln_numbers l = [(B "loc", a); (B "sloc", b); (B "comments", c); (B "blanks", d); (B "complexity", e)] ->
  line_text lt m l = B "[" ++ ln_repo l ++ B "][" ++ ln_sha l ++ B "][" ++ number_text (Z.of_N m) ++ B "m] " ++ ln_file l ++ B " language=" ++ ln_language l ++
    B ",license=" ++ license_shown lt l ++ B ",loc=" ++ number_text a ++ B ",sloc=" ++ number_text b ++ B ",comments=" ++ number_text c ++ B ",blanks=" ++ number_text d ++
    B ",complexity=" ++ number_text e ++ B ",skipped=" ++ ln_skipped l ++ B ",status=" ++ status_text (ln_status l) ++ B ",author=" ++ ln_author l ++ [NL].
Proof.
  intros E. unfold line_text, license_shown. rewrite E. cbn [map concat fst snd].
  change (B ",loc=") with (B "," ++ B "loc" ++ B "="). change (B ",sloc=") with (B "," ++ B "sloc" ++ B "="). change (B ",comments=") with (B "," ++ B "comments" ++ B "=").
  change (B ",blanks=") with (B "," ++ B "blanks" ++ B "="). change (B ",complexity=") with (B "," ++ B "complexity" ++ B "="). rewrite app_nil_r, <-!app_assoc. reflexivity.
Qed.
Ltac notin := let K := fresh in intros K; repeat (apply elem_of_cons in K as [K|K]; [discriminate K|]); by apply elem_of_nil in K.
Ltac peel E H1 H2 := apply sep_inj in E as [H1 E]; [|notin|H2|H2].
Ltac num := apply not_occurs, number_not; [reflexivity|discriminate].
Ltac st := apply not_occurs; match goal with |- _ ∉ status_text ?s => destruct s end; notin.
Lemma text_inj dir dir' (r r' : bresult T L) l l' m m' : record_line dir r = Ret l -> record_line dir' r' = Ret l' -> unmistakable lt l -> unmistakable lt l' ->
  line_text lt m l = line_text lt m' l' -> m = m' /\ same_shown lt l l'.
Proof.
  intros Hl Hl' (A1 & A2 & A3 & A4 & A5 & A6) (A1' & A2' & A3' & A4' & A5' & A6') E. apply line_numbers in Hl, Hl'.
  rewrite (line_pieces m l _ _ _ _ _ Hl), (line_pieces m' l' _ _ _ _ _ Hl') in E. apply app_inv_head in E.
  apply (sep_inj "]" (B "[")) in E as [B1 E]; [|notin|exact A1|exact A1'].
  apply (sep_inj "]" (B "[")) in E as [B2 E]; [|notin|exact A2|exact A2'].
  apply (sep_inj "m" (B "] ")) in E as [B3 E]; [|notin|num|num].
  apply (sep_inj " " (B "language=")) in E as [B4 E]; [|notin|exact A3|exact A3'].
  apply (sep_inj "," (B "license=")) in E as [B5 E]; [|notin|exact A4|exact A4'].
  apply (sep_inj "," (B "loc=")) in E as [B6 E]; [|notin|exact A5|exact A5'].
  apply (sep_inj "," (B "sloc=")) in E as [B7 E]; [|notin|num|num].
  apply (sep_inj "," (B "comments=")) in E as [B8 E]; [|notin|num|num].
  apply (sep_inj "," (B "blanks=")) in E as [B9 E]; [|notin|num|num].
  apply (sep_inj "," (B "complexity=")) in E as [B10 E]; [|notin|num|num].
  apply (sep_inj "," (B "skipped=")) in E as [B11 E]; [|notin|num|num].
  apply (sep_inj "," (B "status=")) in E as [B12 E]; [|notin|exact A6|exact A6'].
  apply (sep_inj "," (B "author=")) in E as [B13 E]; [|notin|st|st].
  apply app_inj_tail in E as [B14 _]. apply number_inj in B3, B7, B8, B9, B10, B11. apply status_inj in B13.
  split; [lia|]. unfold same_shown. rewrite Hl, Hl'. split; [exact B1|]. split; [exact B2|]. split; [exact B4|]. split; [exact B5|]. split; [exact B6|].
  split; [unfold printed_numbers; congruence|]. split; [exact B12|]. split; [exact B13|exact B14].
Qed.
(** Without newlines in it a line is one line. *)
Definition body (m : N) (l : rline L) : bytes := take (length (line_text lt m l) - 1) (line_text lt m l).
Lemma body_nl m l : line_text lt m l = body m l ++ [NL].
Proof.
  unfold body, line_text. rewrite !app_assoc, app_length. cbn [length]. rewrite Nat.add_sub, take_app. reflexivity.
Qed.
Lemma nl_const s : forallb (fun c => negb (bool_decide (c = NL))) (B s) = true -> no_nl (B s).
Proof. apply const_no_nl. Qed.
Lemma body_no_nl dir (r : bresult T L) m l : record_line dir r = Ret l -> in_one_line lt l -> no_nl (body m l).
Proof.
  intros Hl (H1 & H2 & H3 & H4 & H5 & H6 & H7). apply line_numbers in Hl. pose proof (body_nl m l) as E. rewrite (line_pieces m l _ _ _ _ _ Hl), !app_assoc in E. apply app_inj_tail in E as [E _]. rewrite <-E.
  assert (Nn : forall z, no_nl (number_text z)) by (intros z; apply number_not; [reflexivity|discriminate]).
  assert (Ns : no_nl (status_text (ln_status l))) by (destruct (ln_status l); notin).
  repeat match goal with
  | |- no_nl (_ ++ _) => apply no_nl_app
  | _ => first [exact H1|exact H2|exact H3|exact H4|exact H5|exact H6|exact H7|apply Nn|exact Ns|apply nl_const; reflexivity]
  end.
Qed.
(** One record: its place, the minutes, its line. *)
Definition printed_as (x : N * rline L) : Prop := exists dir (r : bresult T L), record_line dir r = Ret x.2.
Lemma output_inj (ls ls' : list (N * rline L)) :
  Forall (fun x => printed_as x /\ unmistakable lt x.2 /\ in_one_line lt x.2) ls -> Forall (fun x => printed_as x /\ unmistakable lt x.2 /\ in_one_line lt x.2) ls' ->
  concat (map (fun x => line_text lt x.1 x.2) ls) = concat (map (fun x => line_text lt x.1 x.2) ls') -> Forall2 (fun x y => x.1 = y.1 /\ same_shown lt x.2 y.2) ls ls'.
Proof.
  intros H H' E. assert (U : forall l : list (N * rline L), concat (map (fun x => line_text lt x.1 x.2) l) = unlines (map (fun x => body x.1 x.2) l)).
  { intros l. unfold unlines. rewrite map_map. f_equal. apply map_ext. intros x. apply body_nl. }
  assert (Nl : forall l, Forall (fun x : N * rline L => printed_as x /\ unmistakable lt x.2 /\ in_one_line lt x.2) l -> Forall no_nl (map (fun x => body x.1 x.2) l)).
  { intros l Hl. apply Forall_map. eapply Forall_impl; [exact Hl|]. intros [m x] ((dir & r & Hr) & _ & Ho). eapply body_no_nl; [exact Hr|exact Ho]. }
  rewrite !U in E. apply (f_equal raw_lines) in E. rewrite !raw_lines_unlines in E by (by apply Nl). clear U Nl. revert ls' H' E.
  induction H as [|[m x] ls ((dir & r & Hr) & Hu & _) _ IH]; intros [|[m' x'] ls'] H' E; [constructor|discriminate..|].
  apply Forall_cons in H' as [((dir' & r' & Hr') & Hu' & _) H']. cbn [map] in E. injection E as E1 E2. constructor; [|by apply IH]. cbn [fst snd] in *.
  eapply text_inj; [exact Hr|exact Hr'|exact Hu|exact Hu'|]. by rewrite !body_nl, E1.
Qed.
End Line.

Lemma number_decimal z : number_text z = decimal z.
Proof. destruct z; reflexivity. Qed.
Lemma line_is {T L} (lt : L -> bytes) dir (r : bresult T L) l m : record_line dir r = Ret l -> line_for lt dir m r (line_text lt m l).
Proof.
  intros Hl. pose proof (line_numbers dir r l Hl) as Hn. rewrite (line_pieces lt m l _ _ _ _ _ Hn). unfold record_line in Hl.
  destruct (Nat.ltb_spec (length (mc_sha (br_commit r))) 8) as [|Hlen]; [discriminate|]. unfold printed_status in Hl. destruct (mc_files (br_commit r) !! br_filename r) as [f|] eqn:Ef; [|discriminate].
  cbn [obind] in Hl. injection Hl as <-. exists (take 8 (mc_sha (br_commit r))), (drop 8 (mc_sha (br_commit r))), f. split; [by rewrite take_drop|]. split; [rewrite take_length; lia|]. split; [exact Ef|].
  unfold license_shown. cbn [ln_repo ln_sha ln_file ln_language ln_license ln_skipped ln_status ln_author]. rewrite !number_decimal.
  replace (decimal (Z.of_N m)) with (show m) by (by destruct m). unfold author. destruct (mc_author_name (br_commit r)) as [|a n]; [rewrite decide_False by (intros K; by apply K)|rewrite decide_True by discriminate]; by destruct (cf_status f).
Qed.
