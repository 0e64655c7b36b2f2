(** * Lemmas for C82: calls that continue each other *)
From Verif.Model Require Import Base GoStrings IncBlame LogParser ParentsGraph Process Msgp Checkpoint CheckpointFS CommitMeta FileInfo CodeInfo.
From Verif.Spec Require Import Text UnifiedDiff Attribution GitLog CommitGraph History Processing Checkpoint Resuming Records MetaLog EndToEnd Selection GitAnswers Continuing.
From Verif.Proofs Require Import TextLemmas CheckpointFiles CheckpointProofs ParentsGraphProofs BlameOf ProcessRegular ProcessMerge ProcessLoop ResumeTop SelectionProofs.
From Coq Require Import Lia.

(** ** The same checkpoint in a repository that has grown *)
Section Grown.
Context (H1 H : history) (HE : extends H1 H) (HC : complete (hi_parents H1)).
Context (slow1 slow : bytes -> bytes -> outcome blame) (Hslow : forall c f, is_Some (hi_parents H1 !! c) -> slow1 c f = slow c f).

Lemma grown_blame c f b : blame_of H1 slow1 c f b -> known H1 c -> blame_of H slow c f b.
Proof.
  intros HB. induction HB as
    [c p f b Hp Hs Hn _ IH|c f q hs ls Hl Hq Hw Hb Ht Ha|c p f q hs tail b ls Hp Hq Hw Hnb Ht _ IH Hbin Hf Ha|c f q Hl Hq Hw Hb
    |c p f q b Hp Hq Hw Hnb Hne Hfb _ IH Hbin|c p f q hs b b' Hp Hq Hw Hnb Ht _ IH Hbin Hsl|c p f b Hm Hp Hs Ht _ IH
    |c f e txt mps ls Hm He Htx Hlen Hmp Hz _ IH Hf Hml|c f p q Hm Hp Hq Hw Hb|c f p q b Hm Hp Hq Hw Hnb _ IH Hbin];
    intros Hc; destruct (HE c Hc) as (_ & Htr & Hdf & _); pose proof (ext_parents H1 H HE c Hc) as Hpp; pose proof (ext_patches H1 H HE c Hc) as Hpc;
    assert (HK : forall p, p ∈ hparents H1 c -> known H1 p) by (intros ? ?; by eapply ext_parent_known);
    rewrite <- ?Htr, <- ?Hdf, <- ?Hpp, <- ?Hpc in *.
  - eapply bo_same; [done|done|done|]. apply IH, HK. rewrite Hp. by constructor.
  - by eapply bo_created.
  - eapply bo_changed; try done. apply IH, HK. rewrite Hp. by constructor.
  - by eapply bo_binary.
  - eapply bo_moved_binary; try done. apply IH, HK. rewrite Hp. by constructor.
  - eapply bo_rebuilt; try done; [apply IH, HK; rewrite Hp; by constructor|]. by rewrite <- (Hslow c f Hc).
  - eapply bo_merge_same; try done; [|by apply IH, HK]. destruct (HE p (HK p Hp)) as (_ & -> & _). done.
  - eapply bo_merge; try done. intros i p m Hi Hmi Hne. apply (IH i p m); try done. apply HK. by eapply elem_of_list_lookup_2.
  - by eapply bo_merge_binary.
  - eapply bo_merge_opaque; try done. apply IH. by apply HK.
Qed.
Lemma grown_right r : checkpoint_right H1 slow1 r -> checkpoint_right H slow r.
Proof.
  intros Hr c fs Hc. destruct (Hr c fs Hc) as [Hk Hg]. split; [by apply (ext_known H1 H HE)|]. intros f Hf. destruct (HE c Hk) as (_ & Ht & _). rewrite Ht in Hf.
  destruct (Hg f Hf) as (b & Hb & HB). exists b. split; [exact Hb|]. by apply grown_blame.
Qed.
End Grown.

(** Reading it back. *)
Lemma right_with_files H slow r : checkpoint_right H slow r -> checkpoint_right H slow (with_files r).
Proof. intros Hr c fs Hc. apply Hr. unfold with_files in Hc. by apply map_filter_lookup_Some in Hc as [? _]. Qed.
Lemma kept_with_files H slow r c : checkpoint_right H slow r -> is_Some (r !! c) -> hi_tree H c <> ∅ -> is_Some (with_files r !! c).
Proof.
  intros Hr [fs Hfs] Hne. destruct (Hr c fs Hfs) as [_ Hg]. apply map_choose in Hne as (f & x & Hf). destruct (Hg f ltac:(by eexists)) as (b & Hb & _).
  exists fs. apply with_files_some; [exact Hfs|]. intros ->. by rewrite lookup_empty in Hb.
Qed.

(** The id of a commit is a name. *)
Lemma id_simple v : commit_id v -> Selection.simple_name v.
Proof.
  intros [Hne Hh]. assert (Hc : forall c, hex_char c = false -> c ∉ v).
  { intros c Hx Hin. rewrite forallb_forall in Hh. apply elem_of_list_In, Hh in Hin. by rewrite Hx in Hin. }
  split; [exact Hne|]. split; [by apply Hc|]. split; [apply no_dots_notin; by apply Hc|]. split.
  - intros u ->. apply (Hc "."%char); [reflexivity|]. apply elem_of_app. right. change (B ".") with ["."%char]. left.
  - intros ->. apply (Hc "-"%char); [reflexivity|]. left.
Qed.

(** Records whose lines are right in a weaker sense. *)
Lemma records_mono {T L} H slow (ok ok' : line -> bline T -> Prop) c (rs : list (bresult T L)) : (forall l bl, ok l bl -> ok' l bl) ->
  commit_records_right H slow ok c rs -> commit_records_right H slow ok' c rs.
Proof.
  intros Hok. assert (Hlines : forall f (r : bresult T L), lines_right H slow ok c f r -> lines_right H slow ok' c f r).
  { intros f r (b & Hb & HF). exists b. split; [exact Hb|]. eapply Forall2_impl; [exact HF|]. intros l bl. apply Hok. }
  unfold commit_records_right. destruct (decide _).
  - intros (H1 & H2 & H3). split; [done|]. split; [done|]. intros r Hr. destruct (H3 r Hr) as (A1 & A2 & A3 & A4). split; [done|]. split; [done|]. split; [|done]. intros Hs Hn. by apply Hlines, A3.
  - intros (H1 & H2 & H3). split; [done|]. split; [done|]. intros r Hr. destruct (H3 r Hr) as (A1 & A2 & A3 & A4 & A5). do 3 (split; [done|]). split; [|done]. intros Hn. by apply Hlines, A4.
Qed.
