(** * C95: random strings *)
From Verif.Model Require Import Base Random.
From Verif.Spec Require Import Chance.
From Coq Require Import Lia.

(** Any characters, fewer than 256: a string of the length asked for, of those characters, whatever the bytes are. *)
Theorem C95_length_and_characters chars src : 0 < length chars < 256 ->
  exists s, random_string chars src = Ret s /\ length s = length src /\ forall c, c ∈ s -> c ∈ chars.
Proof.
  intros Hn. induction src as [|b src (s & E & El & Ec)]; cbn [random_string].
  - exists []. split; [done|]. split; [done|]. intros c Hc. by apply elem_of_nil in Hc.
  - unfold pick, as_byte. rewrite Nat.mod_small by lia. rewrite decide_False by lia.
    assert (Hm : b mod length chars < length chars) by (apply Nat.mod_upper_bound; lia).
    destruct (_ !! _) as [c|] eqn:Hc; [|apply lookup_ge_None in Hc; lia]. cbn [obind]. rewrite E. cbn [obind].
    exists (c :: s). split; [done|]. split; [cbn; lia|]. intros x [->|Hx]%elem_of_cons; [by eapply elem_of_list_lookup_2|by apply Ec].
Qed.
Print Assumptions C95_length_and_characters.
(** And every such string can come out. *)
Theorem C95_every_string chars s : 0 < length chars < 256 -> (forall c, c ∈ s -> c ∈ chars) ->
  exists src, Forall byte src /\ random_string chars src = Ret s.
Proof.
  intros Hn. induction s as [|c s IH]; intros Hs; [by exists []|]. destruct IH as (src & Hb & E); [intros x Hx; apply Hs; by right|].
  destruct (elem_of_list_lookup_1 chars c) as [i Hi]; [apply Hs; left|]. assert (Hl := lookup_lt_Some _ _ _ Hi).
  exists (i :: src). split; [constructor; [unfold byte; lia|exact Hb]|]. cbn [random_string]. unfold pick, as_byte. rewrite Nat.mod_small by lia. rewrite decide_False by lia.
  rewrite Nat.mod_small by lia. destruct (_ !! _) as [x|] eqn:Hc; [|exfalso; apply lookup_ge_None in Hc; lia]. assert (x = c) as -> by congruence. cbn [obind]. by rewrite E.
Qed.
Print Assumptions C95_every_string.
(** Not equally often: A comes out in 5 cases of 256, Z in 4. *)
Definition picked (chars : bytes) (b : nat) : option ascii := match pick chars b with Ret c => Some c | _ => None end.
Theorem C95_equally_likely_refuted : cases (picked latin_and_numbers) "A"%char = 5 /\ cases (picked latin_and_numbers) "Z"%char = 4 /\ "A"%char ∈ latin_and_numbers /\ "Z"%char ∈ latin_and_numbers.
Proof. split; [vm_compute; reflexivity|]. split; [vm_compute; reflexivity|]. split; apply (bool_decide_unpack _); vm_compute; exact I. Qed.
Print Assumptions C95_equally_likely_refuted.
(** With 256 characters, or a multiple, every call that asks for something panics; with more, the ones after the first [length mod 256] never come out. *)
Theorem C95_many_characters_refuted chars src : length chars mod 256 = 0 -> src <> [] -> exists e, random_string chars src = Panic e.
Proof. intros Hn Hs. destruct src as [|b src]; [done|]. cbn [random_string]. unfold pick, as_byte. rewrite decide_True by done. by eexists. Qed.
Print Assumptions C95_many_characters_refuted.
Theorem C95_later_characters_refuted chars src s : random_string chars src = Ret s -> forall c, c ∈ s -> c ∈ take (length chars mod 256) chars.
Proof.
  revert s. induction src as [|b src IH]; intros s; cbn [random_string]; [intros [= <-] c Hc; by apply elem_of_nil in Hc|].
  unfold pick, as_byte. destruct (decide _) as [|Hn]; [done|]. destruct (chars !! _) as [x|] eqn:Ex; cbn [obind]; [|done]. destruct (random_string chars src) as [s'| |]; cbn [obind]; try done. intros [= <-] c [->|Hc]%elem_of_cons; [|by eapply IH].
  apply (elem_of_list_lookup_2 _ (b mod (length chars mod 256))). rewrite lookup_take; [done|]. by apply Nat.mod_upper_bound.
Qed.
Print Assumptions C95_later_characters_refuted.

Example C95_hypotheses_hold : length latin_and_numbers = 62 /\ random_string latin_and_numbers [0; 61; 62; 255] = Ret (B "A9AH").
Proof. vm_compute. split; reflexivity. Qed.
