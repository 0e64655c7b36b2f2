(** * C100: a patch is applied only to the file it was made for *)
From Verif.Model Require Import Base GoStrings IncBlame.
From Verif.Spec Require Import Text UnifiedDiff Attribution.
From Verif.Proofs Require Import TextLemmas HunkHeader ParsePatch ApplyPatch IncBlameMore MergeBlame FitProofs.
From Verif.Props Require Import IncBlameProps.
From Coq Require Import Lia.

(** A patch git could print, with at least two lines of context; [hs] are its hunks. *)
Definition git_patch (p : fpatch) (hs : list shunk) : Prop :=
  wf_patch p /\ short_lines (patch_lines p) /\ fp_body p = FBText hs /\ (forall q m, fp_kind p <> FDelete q m) /\ exists k, 2 <= k /\ has_context k 0 true hs.
(** The lines are the ones the patch was made against, whatever follows the last hunk. *)
Definition made_for (hs : list shunk) (ls : list line) : Prop := exists tail, Forall2 same_up_to_cr (texts ls) (old_text (script hs tail)).
Definition refused {A} (x : outcome A) : Prop := forall b, x <> Ret b.

(** The full property: a patch applied to other lines than those it was made against is refused. *)
Definition C100_full : Prop := forall p hs file commit d, git_patch p hs -> b_binary file = false -> ~ made_for hs (b_lines file) ->
  parse (render_patch p) = Ret d -> refused (apply file d commit).

Definition other_file : blame := Blame (B "c1") (map (fun t => Line t (B "c1")) (map B ["1"; "2"; "3"; "4"; "5"; "6"; "7"; "8"; "9"; "10"; "11"; "12"]%string)) false.
Example ex_git_patch : git_patch ex_patch ex_hunks.
Proof. split; [exact ex_wf|]. split; [exact ex_short|]. split; [reflexivity|]. split; [intros q m; discriminate|]. exists 3. split; [lia|exact ex_context]. Qed.
Example other_not_made_for : ~ made_for ex_hunks (b_lines other_file).
Proof.
  intros (tail & H). cbn in H. apply Forall2_cons_inv_l in H as (y & l & (t & H1 & H2) & _ & E). injection E as <- _.
  pose proof cr_trimmed_no_cr as F.
  assert (N1 : no_trailing_cr (B "1")) by (eapply (proj1 (Forall_singleton _ _)), no_trailing_cr_check; reflexivity).
  assert (N2 : no_trailing_cr (B "one")) by (eapply (proj1 (Forall_singleton _ _)), no_trailing_cr_check; reflexivity).
  pose proof (F _ _ N1 H1) as E1. pose proof (F _ _ N2 H2) as E2. rewrite E1 in E2. discriminate.
Qed.
Theorem C100_other_file_refuted : ~ C100_full.
Proof.
  intros H. destruct (C02_attribution ex_patch ex_hunks [B "11"; B "12"] other_file (B "c2") 3) as (d & b & Hp & Ha & _);
    [exact ex_wf|exact ex_short|reflexivity|intros q m; discriminate|lia|exact ex_context|reflexivity|reflexivity|].
  exact (H ex_patch ex_hunks other_file (B "c2") d ex_git_patch eq_refl other_not_made_for Hp b Ha).
Qed.
Print Assumptions C100_other_file_refuted.

(** The contents are never compared, whatever the patch: applied to any other file with as many lines it also returns, and copies the lines at the same
    places and adds the same lines. *)
Theorem C100_contents_not_compared_refuted file file' d commit b :
  apply file d commit = Ret b -> b_binary file' = false -> length (b_lines file') = length (b_lines file) ->
  exists b', apply file' d commit = Ret b' /\
    Forall2 (fun l l' => (exists j, b_lines file !! j = Some l /\ b_lines file' !! j = Some l') \/ (l = l' /\ l_commit l = commit)) (b_lines b) (b_lines b').
Proof. apply contents_not_compared. Qed.
Print Assumptions C100_contents_not_compared_refuted.

(** What is checked: the last line the patch mentions has to exist.  A shorter file is refused; with any other the lines are handled by place: those after the
    last hunk are kept, and those at the places of the hunks are kept or dropped as the patch says, whatever they contain. *)
Theorem C100_fits_partial p hs file commit :
  git_patch p hs -> b_binary file = false ->
  exists d, parse (render_patch p) = Ret d /\
    let reach := length (old_text (script hs [])) in
    (length (b_lines file) < reach -> refused (apply file d commit)) /\
    (reach <= length (b_lines file) -> exists b, apply file d commit = Ret b /\
       attributed cr_trimmed commit (script hs (texts (drop reach (b_lines file)))) (b_lines file) (b_lines b)).
Proof.
  intros (Hwf & Hs & Hb & Hk & k & Hk2 & Hctx) Hbin.
  pose proof (parse_render p Hwf Hs) as Hp. rewrite Hp. eexists. split; [reflexivity|]. cbv zeta. rewrite script_old_length, Nat.add_0_r. split.
  - intros Hl. destruct (too_short_panics p hs file commit k) as (d & m & Hd & Ha); [done..|]. rewrite Hp in Hd. injection Hd as <-. intros b. rewrite Ha. discriminate.
  - intros Hl. destruct (parse_apply_attributed_cr p hs (texts (drop (patch_reach hs) (b_lines file))) file commit k) as (d & b & Hd & Ha & _ & _ & Hat); [done..| |].
    + rewrite script_old_length. unfold texts. rewrite map_length, drop_length. lia.
    + rewrite Hp in Hd. injection Hd as <-. exists b. split; [exact Ha|exact Hat].
Qed.
Print Assumptions C100_fits_partial.

(** The patch of C01 reaches the tenth line. *)
Definition short_file : blame := Blame (B "c1") (map (fun t => Line t (B "c1")) (map B ["1"; "2"; "3"]%string)) false.
Example C100_hypotheses_hold : git_patch ex_patch ex_hunks /\ length (old_text (script ex_hunks [])) = 10 /\
  length (b_lines short_file) < 10 /\ 10 <= length (b_lines other_file) /\
  exists d b, parse (render_patch ex_patch) = Ret d /\ apply other_file d (B "c2") = Ret b /\
    texts (b_lines b) = map B ["1"; "TWO"; "3"; "4"; "5"; "6"; "7"; "8"; "9"; "10"; "ten"; "eleven"; "11"; "12"]%string.
Proof. split; [exact ex_git_patch|]. split; [reflexivity|]. split; [cbn; lia|]. split; [cbn; lia|]. eexists _, _. split; [vm_compute; reflexivity|]. split; vm_compute; reflexivity. Qed.
