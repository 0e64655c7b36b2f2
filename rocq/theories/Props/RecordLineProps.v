(** * C103: the line of a record can be read back *)
From Verif.Model Require Import Base GoStrings CommitMeta CodeInfo Commands CodeCommand RecordLine.
From Verif.Spec Require Import Text LineReading.
From Verif.Proofs Require Import TextLemmas RecordLineProofs ProcessExamples.
From Coq Require Import Lia.

(** The line printed for a record. *)
Theorem C103_line {T L : Type} (license_text : L -> bytes) dir (r : bresult T L) l minutes :
  record_line dir r = Ret l -> line_for license_text dir minutes r (line_text license_text minutes l).
Proof. apply line_is. Qed.
(** Two records printed alike are the same in everything that the line shows, if nothing in their lines contains what ends it. *)
Theorem C103_line_readable_partial {T L : Type} (license_text : L -> bytes) dir dir' (r r' : bresult T L) l l' minutes minutes' :
  record_line dir r = Ret l -> record_line dir' r' = Ret l' -> unmistakable license_text l -> unmistakable license_text l' ->
  line_text license_text minutes l = line_text license_text minutes' l' -> minutes = minutes' /\ same_shown license_text l l'.
Proof. apply text_inj. Qed.
(** So does everything printed for any number of records, if there are no newlines in it, either. *)
Theorem C103_output_readable_partial {T L : Type} (license_text : L -> bytes) (ls ls' : list (N * rline L)) :
  (forall x, x ∈ ls \/ x ∈ ls' -> (exists dir (r : bresult T L), record_line dir r = Ret x.2) /\ unmistakable license_text x.2 /\ in_one_line license_text x.2) ->
  concat (map (fun x => line_text license_text x.1 x.2) ls) = concat (map (fun x => line_text license_text x.1 x.2) ls') ->
  Forall2 (fun x y => x.1 = y.1 /\ same_shown license_text x.2 y.2) ls ls'.
Proof. intros H. apply (output_inj (T := T)); apply Forall_forall; intros x Hx; apply H; [by left|by right]. Qed.

(** Without the condition it is not so: records of different files of different commits in different repositories can be printed alike. *)
Definition ln_rec (sha file : bytes) : bresult N bytes :=
  BResult (MCommit sha (B "An") (B "an@x") (B "An") (B "an@x") 0%N 0 [] [] {[ file := plain_file file Modified ]}) (B "Go") file [] 10 (Totals 3 2 0 1 0) [] None Modified.
Definition ln_sha1 : bytes := B "1111111111111111111111111111111111111111".
Definition ln_sha2 : bytes := B "2222222222222222222222222222222222222222".
Theorem C103_alike_refuted : ~ forall dir dir' (r r' : bresult N bytes) l l' m m', record_line dir r = Ret l -> record_line dir' r' = Ret l' ->
  line_text (fun x => x) m l = line_text (fun x => x) m' l' -> br_filename r = br_filename r'.
Proof.
  intros H. specialize (H (B "/src/d") (B "/src/d][11111111][0m] g") (ln_rec ln_sha1 (B "g][22222222][0m] x.go")) (ln_rec ln_sha2 (B "x.go"))).
  specialize (H _ _ 0%N 0%N eq_refl eq_refl). assert (K : B "g][22222222][0m] x.go" = B "x.go"); [|discriminate K]. apply H. vm_compute. reflexivity.
Qed.
Print Assumptions C103_line.
Print Assumptions C103_line_readable_partial.
Print Assumptions C103_output_readable_partial.
Print Assumptions C103_alike_refuted.

Lemma ln_not_occurs m s : contains m s = false -> ~ occurs m s.
Proof. intros H K. apply contains_iff in K. congruence. Qed.
Example C103_hypotheses_hold : exists l, record_line (B "/src/d") (ln_rec ln_sha1 (B "a b.go")) = Ret l /\ unmistakable (fun x : bytes => x) l /\ in_one_line (fun x : bytes => x) l /\
  line_text (fun x => x) 2 l = B "[/src/d][11111111][2m] a b.go language=Go,license=,loc=3,sloc=2,comments=0,blanks=0,complexity=0,skipped=,status=modified,author=An" ++ [NL].
Proof.
  eexists. split; [vm_compute; reflexivity|]. split; [|split; [|vm_compute; reflexivity]].
  - unfold unmistakable. do 5 (split; [apply ln_not_occurs; vm_compute; reflexivity|]). apply ln_not_occurs. vm_compute. reflexivity.
  - unfold in_one_line. do 6 (split; [apply const_no_nl; vm_compute; reflexivity|]). apply const_no_nl. vm_compute. reflexivity.
Qed.
Print Assumptions C103_hypotheses_hold.
