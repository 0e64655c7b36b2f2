(** Parsing the patch text git prints for one file. *)
From Verif.Model Require Import Base GoStrings IncBlame.
From Verif.Spec Require Import Text UnifiedDiff.
From Verif.Proofs Require Import TextLemmas HunkHeader.
From Coq Require Import Lia.

(** ** The declaration line *)

Lemma plain_not_elem c p : plain_char c = false -> forallb plain_char p = true -> c ∉ p.
Proof.
  intros Hc Hp He. rewrite forallb_forall in Hp. apply elem_of_list_In in He. rewrite Hp in Hc; done.
Qed.
Lemma plain_drop_cr p : forallb plain_char p = true -> drop_cr p = p.
Proof.
  intros H. apply drop_cr_no_cr. intros u ->. rewrite forallb_app in H.
  apply andb_true_iff in H as [_ H]. done.
Qed.
Lemma plain_no_nl p : forallb plain_char p = true -> no_nl p.
Proof. intros H. by apply plain_not_elem. Qed.

Lemma rem_prefix_plain (c : ascii) p :
  c <> QUOTE -> p <> [] -> rem_prefix (c :: "/"%char :: p) [c; "/"%char] = Some p.
Proof.
  intros Hc Hp. unfold rem_prefix.
  assert (forall x, match rev ("/"%char :: p) with
                  | [] => x | e :: mid => if bool_decide (c = QUOTE) && bool_decide (e = QUOTE) then rev mid else x end = x) as Hx.
  { intros x. destruct (rev ("/"%char :: p)); [done|]. by rewrite bool_decide_eq_false_2. }
  rewrite Hx. cbn [length]. destruct p as [|a p]; [done|]. cbn [length Nat.leb orb has_prefix].
  by rewrite !bool_decide_eq_true_2.
Qed.

Definition decl_data (o n : bytes) : bytes := B "a/" ++ o ++ B " b/" ++ n.
Definition decl_line (o n : bytes) : bytes := B "diff --git a/" ++ o ++ B " b/" ++ n.

Lemma decl_line_eq o n : decl_line o n = diff_decl_prefix_normal ++ decl_data o n.
Proof. done. Qed.

Lemma count_sp_data o n : count_byte SP (decl_data o n) = 1 + count_byte SP o + count_byte SP n.
Proof.
  unfold decl_data. rewrite !count_byte_app.
  change (count_byte SP (B "a/")) with 0. change (count_byte SP (B " b/")) with 1. lia.
Qed.

Lemma parse_diff_decl_unfold o n :
  parse_diff_decl (decl_line o n) =
  (if Nat.eqb (count_byte SP (decl_data o n)) 1 then
        match index_byte SP (decl_data o n) with
        | None | Some 0 => DeclErr
        | Some i =>
            match rem_prefix (take i (decl_data o n)) (B "a/") with
            | None => DeclErr
            | Some from =>
                match rem_prefix (drop (S i) (decl_data o n)) (B "b/") with
                | None => DeclErr
                | Some to => DeclOk from to
                end
            end
        end
      else
        let data := decl_data o n in
        let mid := Nat.div2 (length data) in
        if Nat.ltb (length data) 7 || negb (Nat.odd (length data))
           || negb (beq (take 2 data) (B "a/"))
           || negb (beq (take 2 (drop (mid + 1) data)) (B "b/"))
        then DeclRenameWithSpaces
        else
          let from := drop 2 (take mid data) in
          let to := drop (mid + 3) data in
          if negb (beq from to) then DeclRenameWithSpaces else DeclOk from to).
Proof.
  unfold parse_diff_decl. rewrite decl_line_eq.
  destruct (diff_decl_prefix_normal ++ decl_data o n) as [|x y] eqn:He; [done|]. rewrite <-He. clear x y He.
  rewrite has_prefix_app. cbn [negb]. rewrite drop_app_len.
  destruct (Nat.eqb_spec (count_byte SP (decl_data o n)) 0) as [H|H]; [rewrite count_sp_data in H; lia|]. done.
Qed.

Lemma simple_decl o n :
  plain_path o -> plain_path n -> count_byte SP (decl_data o n) = 1 -> parse_diff_decl (decl_line o n) = DeclOk o n.
Proof.
  intros [Ho _] [Hn _] Hc. rewrite parse_diff_decl_unfold, Hc. cbn [Nat.eqb].
  rewrite count_sp_data in Hc.
  assert (SP ∉ o) by (apply count_byte_0; lia). assert (SP ∉ n) by (apply count_byte_0; lia).
  assert (Hd : decl_data o n = (B "a/" ++ o) ++ SP :: (B "b/" ++ n)).
  { unfold decl_data. by rewrite <-app_assoc. }
  rewrite Hd. rewrite index_byte_app by (cbn; set_solver).
  destruct (length (B "a/" ++ o)) as [|i] eqn:E; [done|]. rewrite <-E. rewrite take_app.
  replace (drop (S (length (B "a/" ++ o))) ((B "a/" ++ o) ++ SP :: B "b/" ++ n)) with (B "b/" ++ n); [|symmetry].
  - change (B "a/" ++ o) with ("a"%char :: "/"%char :: o). change (B "a/") with ["a"%char; "/"%char].
    rewrite rem_prefix_plain by done.
    change (B "b/" ++ n) with ("b"%char :: "/"%char :: n). change (B "b/") with ["b"%char; "/"%char].
    by rewrite rem_prefix_plain.
  - change (SP :: B "b/" ++ n) with ([SP] ++ B "b/" ++ n). rewrite app_assoc.
    rewrite drop_app_alt; [done|]. rewrite !app_length. cbn. lia.
Qed.

Lemma same_decl p : plain_path p -> parse_diff_decl (decl_line p p) = DeclOk p p.
Proof.
  intros Hp. destruct (Nat.eq_dec (count_byte SP (decl_data p p)) 1) as [H|H]; [by apply simple_decl|].
  rewrite parse_diff_decl_unfold. destruct (Nat.eqb_spec (count_byte SP (decl_data p p)) 1); [done|].
  cbv zeta.
  assert (Hlen : length (decl_data p p) = S (2 * (length p + 2))).
  { unfold decl_data. rewrite !app_length. cbn. lia. }
  assert (Hmid : Nat.div2 (length (decl_data p p)) = length p + 2).
  { rewrite Hlen. apply Nat.div2_succ_double. }
  assert (Hodd : Nat.odd (length (decl_data p p)) = true).
  { rewrite Hlen. rewrite Nat.odd_succ, Nat.even_spec. by exists (length p + 2). }
  destruct Hp as [Hp _]. destruct p as [|a p']; [done|]. set (p := a :: p') in *.
  assert (1 <= length p) by (cbn; lia).
  rewrite Hodd, Hmid.
  assert (Nat.ltb (length (decl_data p p)) 7 = false) as ->.
  { apply Nat.ltb_ge. rewrite Hlen. lia. }
  assert (take 2 (decl_data p p) = B "a/") as -> by done.
  assert (Hs : decl_data p p = (B "a/" ++ p ++ B " ") ++ B "b/" ++ p).
  { unfold decl_data. by rewrite <-!app_assoc. }
  assert (drop (length p + 2 + 1) (decl_data p p) = B "b/" ++ p) as ->.
  { rewrite Hs. rewrite drop_app_alt; [done|]. rewrite !app_length. cbn. lia. }
  assert (drop (length p + 2 + 3) (decl_data p p) = p) as ->.
  { replace (length p + 2 + 3) with (length p + 2 + 1 + 2) by lia. rewrite <-drop_drop.
    assert (drop (length p + 2 + 1) (decl_data p p) = B "b/" ++ p) as ->; [|done].
    rewrite Hs. rewrite drop_app_alt; [done|]. rewrite !app_length. cbn. lia. }
  assert (drop 2 (take (length p + 2) (decl_data p p)) = p) as ->.
  { unfold decl_data. rewrite app_assoc. rewrite take_app_alt; [done|]. rewrite app_length. cbn. lia. }
  cbn [take B app]. unfold beq. rewrite !bool_decide_eq_true_2 by done. done.
Qed.

Lemma rename_decl o n : plain_path o -> plain_path n ->
  exists f t, (parse_diff_decl (decl_line o n) = DeclOk f t) \/
              (parse_diff_decl (decl_line o n) = DeclRenameWithSpaces /\ f = [] /\ t = []).
Proof.
  intros Ho Hn. destruct (Nat.eq_dec (count_byte SP (decl_data o n)) 1) as [H|H].
  { exists o, n. left. by apply simple_decl. }
  rewrite parse_diff_decl_unfold. destruct (Nat.eqb_spec (count_byte SP (decl_data o n)) 1); [done|].
  cbv zeta. destruct (_ || _); [by exists [], []; right|].
  destruct (negb _); [by exists [], []; right|]. eexists _, _. by left.
Qed.

(** ** Hunks *)

Definition parsed_hunk (o n : nat) (h : shunk) : hunk :=
  Hunk [parsed_loc OpDel o (old_count h); parsed_loc OpAdd n (new_count h)]
       (unlines (map drop_cr (body_lines (sh_body h)))).
Fixpoint parsed_hunks (opos npos : nat) (hs : list shunk) : list hunk :=
  match hs with
  | [] => []
  | h :: r =>
      let o := opos + length (sh_gap h) in
      let n := npos + length (sh_gap h) in
      parsed_hunk o n h :: parsed_hunks (o + old_count h) (n + new_count h) r
  end.

Lemma drop_cr_header o oc n nc heading :
  drop_cr (hunk_header o oc n nc heading) = hunk_header o oc n nc (drop_cr heading).
Proof.
  unfold hunk_header. rewrite !app_assoc.
  destruct heading as [|c r].
  - cbn [drop_cr]. rewrite !app_nil_r. rewrite drop_cr_app by done. done.
  - by rewrite drop_cr_app.
Qed.

Definition not_header (l : bytes) : Prop := has_prefix (B "@@") l = false.
Lemma body_lines_not_header b : Forall not_header (map drop_cr (body_lines b)).
Proof.
  apply Forall_forall. intros x Hx. apply elem_of_list_fmap in Hx as (l & -> & Hl).
  unfold body_lines in Hl. apply elem_of_list_In, in_concat in Hl as (ls & Hls & Hl).
  apply in_map_iff in Hls as ([e mk] & <- & _). unfold body_line in Hl. cbn [fst snd] in Hl.
  destruct Hl as [<-|Hl].
  - destruct e; cbn [edit_line B list_ascii_of_string app]; rewrite drop_cr_prefix_c; done.
  - destruct mk; [destruct Hl as [<-|[]]|destruct Hl]. done.
Qed.

Definition set_lines (p : parser) (ls : bytes) : parser :=
  Parser (p_state p) (p_prev p) (p_path p) (p_meta p) (p_ctx p) ls (p_res p).
Lemma fold_body p ls : p_state p = StInPatchLines -> Forall not_header ls ->
  ofold p_line p ls = Ret (set_lines p (p_lines p ++ unlines ls)).
Proof.
  intros Hs H. revert p Hs. induction H as [|l ls Hl _ IH]; intros p Hs.
  - cbn. unfold set_lines. rewrite app_nil_r. by destruct p.
  - cbn [ofold]. unfold p_line at 1. rewrite Hs. unfold line_in_patch_lines. rewrite Hl. cbn [obind].
    rewrite IH by done. rewrite unlines_cons. unfold set_lines. cbn [p_lines p_state p_prev p_path p_meta p_ctx p_res]. by rewrite <-!app_assoc.
Qed.

Lemma fold_hunks opos npos hs p :
  p_state p = StInPatchLines ->
  exists p', ofold p_line p (map drop_cr (hunks_lines opos npos hs)) = Ret p' /\
    p_state p' = StInPatchLines /\
    p_prev p' = p_prev p /\ p_path p' = p_path p /\ p_meta p' = p_meta p /\
    p_res (finish_hunk p') = p_res (finish_hunk p) ++ parsed_hunks opos npos hs.
Proof.
  revert opos npos p. induction hs as [|h hs IH]; intros opos npos p Hs.
  - exists p. cbn. rewrite app_nil_r. by destruct p.
  - cbn [hunks_lines parsed_hunks]. set (o := opos + _). set (n := npos + _).
    cbn [map ofold]. rewrite drop_cr_header.
    unfold p_line at 1. rewrite Hs. unfold line_in_patch_lines.
    assert (has_prefix (B "@@") (hunk_header o (old_count h) n (new_count h) (drop_cr (sh_heading h))) = true) as -> by done.
    unfold p_parse_context. rewrite parse_context_header. cbn [obind].
    rewrite map_app, ofold_app.
    rewrite fold_body; [|done|apply body_lines_not_header]. cbn [obind].
    match goal with |- context [ofold p_line ?q _] => destruct (IH (o + old_count h) (n + new_count h) q) as (p' & -> & ? & H1 & H2 & H3 & H4); [done|] end.
    exists p'. split_and!; [done|done|done..|].
    rewrite H4. unfold finish_hunk at 1. cbn. by rewrite <-app_assoc.
Qed.

(** ** Header lines *)

Ltac plain_tac :=
  repeat match goal with
  | H : plain_path _ |- _ => destruct H as [? ?]
  | H : word _ |- _ => destruct H as [? ?]
  end.

Lemma word_plain w : forallb (fun c => plain_char c && negb (bool_decide (c = SP))) w = true -> forallb plain_char w = true.
Proof. rewrite !forallb_forall. intros H x Hx. specialize (H x Hx). by apply andb_true_iff in H as [-> _]. Qed.

Lemma const_drop_cr (s w : bytes) : w <> [] -> forallb plain_char w = true -> drop_cr (s ++ w) = s ++ w.
Proof. intros Hw Hp. rewrite drop_cr_app by done. by rewrite plain_drop_cr. Qed.

Definition pre (prev path : bytes) (m : gmap bytes bytes) : parser := Parser StParsingPreMeta prev path m [] [] [].

Lemma meta_line prev path m l :
  has_prefix (B "---") l = false -> p_line (pre prev path m) l = Ret (pre prev path (add_meta m l)).
Proof. intros H. unfold p_line, pre. cbn [p_state]. by rewrite H. Qed.

Lemma add_meta_none m l :
  Forall (fun s => has_prefix (s ++ B " ") l = false) wanted_meta -> add_meta m l = m.
Proof.
  unfold add_meta, wanted_meta. intros H. repeat (apply Forall_cons_1 in H as [? H]). cbv beta in *.
  cbn [fold_left].
 by repeat match goal with H : has_prefix _ _ = false |- _ => rewrite H; clear H end.
Qed.

Definition kind_meta (k : fkind) : gmap bytes bytes :=
  match k with
  | FModify _ _ => ∅
  | FCreate _ m => {[ meta_new_file := B "mode " ++ m ]}
  | FDelete _ m => {[ meta_deleted_file := B "mode " ++ m ]}
  | FRename f t _ _ => <[ meta_rename_to := t ]> {[ meta_rename_from := f ]}
  end.

Lemma fold_modes prev path m modes : wf_modes modes ->
  ofold p_line (pre prev path m) (map drop_cr (mode_lines modes)) = Ret (pre prev path m).
Proof.
  destruct modes as [[a b]|]; [|done]. intros [[Ha Ha'] [Hb Hb']].
  apply word_plain in Ha', Hb'. cbn [mode_lines map ofold].
  rewrite !const_drop_cr by done. rewrite meta_line by done.
  rewrite add_meta_none by (repeat constructor; done). cbn [obind].
  rewrite meta_line by done. rewrite add_meta_none by (repeat constructor; done). done.
Qed.

Lemma fold_header prev path k : wf_kind k ->
  ofold p_line (pre prev path ∅) (map drop_cr (header_lines k)) = Ret (pre prev path (kind_meta k)).
Proof.
  destruct k as [p m|p m|p m|f t s m]; cbn [wf_kind header_lines].
  - intros [_ Hm]. by apply fold_modes.
  - intros [_ [Hm Hm']]. apply word_plain in Hm'. cbn [map ofold]. rewrite const_drop_cr by done.
    rewrite meta_line by done. done.
  - intros [_ [Hm Hm']]. apply word_plain in Hm'. cbn [map ofold]. rewrite const_drop_cr by done.
    rewrite meta_line by done. done.
  - intros ([Hf Hf'] & [Ht Ht'] & _ & [Hs Hs'] & Hm). apply word_plain in Hs'.
    rewrite map_app, ofold_app, fold_modes by done. cbn [obind map ofold].
    rewrite !const_drop_cr by done. rewrite meta_line by done.
    rewrite add_meta_none by (repeat constructor; done). cbn [obind].
    rewrite meta_line by done. cbn [obind]. rewrite meta_line by done. done.
Qed.

Lemma fold_index prev path m i :
  match i with Some i => index_value i | None => True end ->
  ofold p_line (pre prev path m) (map drop_cr (match i with Some i => [B "index " ++ i] | None => [] end))
  = Ret (pre prev path m).
Proof.
  destruct i as [i|]; [|done]. intros Hi. cbn [map ofold].
  assert (drop_cr (B "index " ++ i) = B "index " ++ i) as ->.
  { destruct i as [|c i]; [done|]. by apply const_drop_cr. }
  rewrite meta_line by done. rewrite add_meta_none by (repeat constructor; done). done.
Qed.

(** ** The whole patch *)

Definition parsed_body (k : fkind) (b : fbody) : list hunk :=
  match k, b with
  | FDelete _ _, _ => []
  | _, FBText hs => parsed_hunks 0 0 hs
  | _, _ => []
  end.

Lemma patch_lines_no_nl p : wf_patch p -> Forall no_nl (patch_lines p).
Proof.
  intros (Hk & Hi & Hb).
  assert (Hold : forallb plain_char (kind_old (fp_kind p)) = true).
  { destruct (fp_kind p); cbn in *; unfold plain_path in *; naive_solver. }
  assert (Hnew : forallb plain_char (kind_new (fp_kind p)) = true).
  { destruct (fp_kind p); cbn in *; unfold plain_path in *; naive_solver. }
  assert (Happ : forall a b, no_nl a -> no_nl b -> no_nl (a ++ b)).
  { unfold no_nl. intros a b Ha Hb'. rewrite not_elem_of_app. auto. }
  assert (Hc : forall s, forallb (fun c => negb (bool_decide (c = NL))) s = true -> no_nl s).
  { intros s Hs He. rewrite forallb_forall in Hs. apply elem_of_list_In in He. by specialize (Hs _ He). }
  assert (HW : forall w, word w -> no_nl w).
  { intros w [_ Hw]. apply plain_no_nl. by apply word_plain. }
  assert (HP : forall w, plain_path w -> no_nl w).
  { intros w [_ Hw]. by apply plain_no_nl. }
  assert (HM : forall m, wf_modes m -> Forall no_nl (mode_lines m)).
  { intros [[a b]|] Hm; [|constructor]. destruct Hm as [Ha Hb']. repeat constructor; apply Happ; auto; by apply Hc. }
  unfold patch_lines. constructor.
  { apply Happ; [by apply Hc|]. apply Happ; [by apply plain_no_nl|]. apply Happ; [by apply Hc|by apply plain_no_nl]. }
  apply Forall_app; split; [|apply Forall_app; split].
  - destruct (fp_kind p); cbn [wf_kind] in Hk; cbn [header_lines].
    + apply HM. naive_solver.
    + repeat constructor. apply Happ; [by apply Hc|]. naive_solver.
    + repeat constructor. apply Happ; [by apply Hc|]. naive_solver.
    + apply Forall_app; split; [apply HM; naive_solver|].
      repeat constructor; (apply Happ; [by apply Hc|]); naive_solver.
  - destruct (fp_index p) as [i|]; [|constructor]. repeat constructor. apply Happ; [by apply Hc|]. by apply plain_no_nl.
  - assert (Hos : no_nl (old_side (fp_kind p))).
    { destruct (fp_kind p); cbn [old_side]; try (by apply Hc); apply Happ; try (by apply Hc); by apply plain_no_nl. }
    assert (Hns : no_nl (new_side (fp_kind p))).
    { destruct (fp_kind p); cbn [new_side]; try (by apply Hc); apply Happ; try (by apply Hc); by apply plain_no_nl. }
    destruct (fp_body p) as [| |hs]; cbn [fbody_lines]; [constructor| |].
    + repeat constructor. repeat apply Happ; try done; by apply Hc.
    + assert (HT : forall s, no_nl s -> no_nl (tabbed s)).
      { intros s Hs. unfold tabbed. apply Happ; [done|]. destruct (existsb _ _); by apply Hc. }
      constructor; [apply Happ; [by apply Hc|by apply HT]|]. constructor; [apply Happ; [by apply Hc|by apply HT]|].
      destruct Hb as [_ Hb]. generalize 0 at 1 as o. generalize 0 as n.
      induction Hb as [|h hs [Hh Hbd] _ IH]; intros n o; cbn [hunks_lines]; [constructor|].
      constructor.
      { unfold hunk_header. repeat apply Happ; try (by apply Hc); try done;
          apply show_range_not_elem; done. }
      apply Forall_app; split; [|apply IH].
      unfold body_lines. rewrite Forall_concat. apply Forall_fmap.
      eapply Forall_impl; [exact Hbd|]. intros [e mk] He. cbn [compose body_line fst snd] in *.
      constructor; [destruct e; cbn in He |- *; apply not_elem_of_cons; split; done|].
      destruct mk; repeat constructor. by apply Hc.
Qed.

Lemma get_meta_kind k :
  get_meta (kind_meta k) meta_binary_files = [].
Proof. destruct k; done. Qed.

Lemma finish_parse_kind k m p prev path hs bin :
  wf_kind k -> p_meta p = m -> p_prev p = prev -> p_path p = path -> p_res (finish_hunk p) = hs ->
  (m = kind_meta k /\ bin = false \/ exists x, x <> [] /\ m = <[ meta_binary_files := x ]> (kind_meta k) /\ bin = true) ->
  (forall f t s md, k <> FRename f t s md -> True) ->
  (match k with FRename _ _ _ _ => True | _ => prev = kind_old k /\ path = kind_new k end) ->
  finish_parse p = Ret (Diff (name_before k) (name_after k) bin
                             (match k with FDelete _ _ => [] | _ => hs end)).
Proof.
  intros Hk <- <- <- <- Hm _ Hp. unfold finish_parse.
  assert (p_meta (finish_hunk p) = p_meta p) as -> by done.
  assert (p_prev (finish_hunk p) = p_prev p) as -> by done.
  assert (p_path (finish_hunk p) = p_path p) as -> by done.
  assert (Hg : forall key, key <> meta_binary_files -> get_meta (p_meta p) key = get_meta (kind_meta k) key).
  { intros key Hkey. destruct Hm as [[-> _]|(x & _ & -> & _)]; [done|]. unfold get_meta. by rewrite lookup_insert_ne. }
  rewrite (Hg meta_new_file), (Hg meta_deleted_file), (Hg meta_rename_from), (Hg meta_rename_to) by done.
  assert (negb (beq (get_meta (p_meta p) meta_binary_files) []) = bin) as ->.
  { unfold beq. destruct Hm as [[-> ->]|(x & Hx & -> & ->)].
    - by rewrite get_meta_kind.
    - unfold get_meta. rewrite lookup_insert. cbn. by rewrite bool_decide_eq_false_2. }
  destruct k as [q md|q md|q md|f t s md]; cbn [kind_meta name_before name_after kind_old kind_new].
  - destruct Hp as [-> ->]. done.
  - destruct Hp as [_ ->]. unfold get_meta. rewrite lookup_singleton.
    rewrite !lookup_singleton_ne by done. cbn. done.
  - destruct Hp as [-> _]. unfold get_meta. rewrite lookup_singleton.
    rewrite !lookup_singleton_ne by done. cbn. done.
  - destruct Hk as ([Hf _] & [Ht _] & _).
    unfold get_meta. rewrite lookup_insert. rewrite !lookup_insert_ne by done. rewrite lookup_singleton.
    rewrite !lookup_singleton_ne by done. unfold beq. cbn [default from_option id].
    rewrite (bool_decide_eq_false_2 (f = [])) by done. rewrite (bool_decide_eq_false_2 (t = [])) by done. done.
Qed.

Theorem parse_render p :
  wf_patch p -> short_lines (patch_lines p) ->
  parse (render_patch p) =
    Ret (Diff (name_before (fp_kind p)) (name_after (fp_kind p)) (is_binary_body (fp_body p))
              (parsed_body (fp_kind p) (fp_body p))).
Proof.
  intros Hwf Hshort. pose proof (patch_lines_no_nl p Hwf) as Hnl.
  destruct Hwf as (Hk & Hi & Hb). unfold parse.
  destruct (render_patch p) as [|c0 r0] eqn:Hr; [done|]. rewrite <-Hr. clear c0 r0 Hr.
  unfold render_patch. rewrite scan_unlines by done.
  unfold patch_lines. cbn [map ofold].
  assert (Hold : plain_path (kind_old (fp_kind p))).
  { destruct (fp_kind p); cbn in *; naive_solver. }
  assert (Hnew : plain_path (kind_new (fp_kind p))).
  { destruct (fp_kind p); cbn in *; naive_solver. }
  assert (drop_cr (B "diff --git a/" ++ kind_old (fp_kind p) ++ B " b/" ++ kind_new (fp_kind p))
          = decl_line (kind_old (fp_kind p)) (kind_new (fp_kind p))) as ->.
  { unfold decl_line. rewrite !app_assoc. apply const_drop_cr; by destruct Hnew. }
  assert (exists prev path, p_line parser_init (decl_line (kind_old (fp_kind p)) (kind_new (fp_kind p)))
            = Ret (pre prev path ∅) /\
          (match fp_kind p with FRename _ _ _ _ => True | _ => prev = kind_old (fp_kind p) /\ path = kind_new (fp_kind p) end))
    as (prev & path & -> & Hpp).
  { unfold p_line. cbn [p_state parser_init].
    destruct (fp_kind p) as [q md|q md|q md|f t s md]; cbn [kind_old kind_new] in *;
      try (rewrite same_decl by done; eexists _, _; by split).
    destruct (rename_decl f t Hold Hnew) as (f' & t' & [->|(-> & _ & _)]); eexists _, _; by split. }
  cbn [obind]. rewrite !map_app, !ofold_app, fold_header by done. cbn [obind].
  rewrite ofold_app, fold_index by done. cbn [obind].
  destruct (fp_body p) as [| |hs] eqn:Hbody; cbn [fbody_lines is_binary_body].
  - cbn [map ofold obind]. rewrite (finish_parse_kind (fp_kind p) (kind_meta (fp_kind p)) _ prev path [] false); auto.
  - cbn [map ofold obind].
    assert (drop_cr (B "Binary files " ++ old_side (fp_kind p) ++ B " and " ++ new_side (fp_kind p) ++ B " differ")
            = B "Binary files " ++ old_side (fp_kind p) ++ B " and " ++ new_side (fp_kind p) ++ B " differ") as ->.
    { rewrite !app_assoc. by rewrite drop_cr_app. }
    rewrite meta_line by done. cbn [obind].
    set (x := old_side (fp_kind p) ++ B " and " ++ new_side (fp_kind p) ++ B " differ").
    change (add_meta (kind_meta (fp_kind p)) (B "Binary files " ++ x))
      with (<[ meta_binary_files := x ]> (kind_meta (fp_kind p))).
    rewrite (finish_parse_kind (fp_kind p) (<[ meta_binary_files := x ]> (kind_meta (fp_kind p))) _ prev path [] true); auto.
    right. exists x. split_and!; try done. unfold x. by destruct (old_side (fp_kind p)).
  - cbn [map ofold].
    assert (Hm : exists y, drop_cr (B "--- " ++ tabbed (old_side (fp_kind p))) = B "---" ++ y).
    { change (B "--- " ++ tabbed (old_side (fp_kind p))) with (B "---" ++ B " " ++ tabbed (old_side (fp_kind p))).
      rewrite drop_cr_app by done. by eexists. }
    destruct Hm as [y ->]. unfold p_line at 1. cbn [p_state pre]. rewrite has_prefix_app. cbn [negb obind].
    unfold p_line at 1. cbn [p_state set_state obind].
    destruct hs as [|h hs]; [by destruct Hb|]. cbn [hunks_lines map ofold].
    rewrite drop_cr_header. unfold p_line at 1. cbn [p_state set_state].
    match goal with |- context [Nat.leb (length ?l) 2] => assert (Nat.leb (length l) 2 = false) as -> by done;
       assert (has_prefix (B "@@") l = true) as -> by done end.
    unfold p_parse_context. rewrite parse_context_header. cbn [obind].
    rewrite map_app, ofold_app.
    rewrite fold_body; [|done|apply body_lines_not_header]. cbn [obind].
    match goal with |- context [ofold p_line ?q (map drop_cr (hunks_lines ?o ?n hs))] =>
       destruct (fold_hunks o n hs q) as (p' & -> & _ & H1 & H2 & H3 & H4); [done|] end.
    cbn [obind]. cbn [p_prev p_path p_meta set_lines set_state pre] in H1, H2, H3.
    erewrite (finish_parse_kind (fp_kind p) (kind_meta (fp_kind p)) p' prev path _ false); [|done|done|done|done|exact H4|by left|done|done].
    done.
Qed.
