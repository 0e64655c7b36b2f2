(** * Text: lines and decimal numbers, as printed by git

    Independent of the model: how lists of lines and numbers are written down. *)
From Verif.Model Require Import Base.
From Coq Require DecimalString Decimal.

(** Text made of the given lines, each terminated by a newline. *)
Definition unlines (ls : list bytes) : bytes := concat (map (fun l => l ++ [NL]) ls).

(** A line contains no newline. *)
Definition no_nl (l : bytes) : Prop := NL ∉ l.

(** Decimal numeral, from Coq's own decimal printer. *)
Definition show (n : N) : bytes := list_ascii_of_string (DecimalString.NilEmpty.string_of_uint (N.to_uint n)).
Definition show_nat (n : nat) : bytes := show (N.of_nat n).

(** [t'] is [t] without some of its trailing carriage returns. *)
Definition cr_trimmed (t t' : bytes) : Prop := exists k, t = t' ++ repeat CR k.
(** The line does not end in a carriage return. *)
Definition no_trailing_cr (t : bytes) : Prop := forall u, t <> u ++ [CR].

(** [m] is a part of [s]. *)
Definition occurs (m s : bytes) : Prop := exists a b, s = a ++ m ++ b.

(** White space in UTF-8: tab, newline, vertical tab, form feed, carriage return, space; U+0085, U+00A0, U+1680, U+2000 to U+200A, U+2028, U+2029, U+202F,
    U+205F, U+3000. *)
Definition white : list bytes :=
  [["009"%char]; ["010"%char]; ["011"%char]; ["012"%char]; ["013"%char]; ["032"%char]; ["194"%char; "133"%char]; ["194"%char; "160"%char]; ["225"%char; "154"%char; "128"%char];
   ["226"%char; "128"%char; "128"%char]; ["226"%char; "128"%char; "129"%char]; ["226"%char; "128"%char; "130"%char]; ["226"%char; "128"%char; "131"%char];
   ["226"%char; "128"%char; "132"%char]; ["226"%char; "128"%char; "133"%char]; ["226"%char; "128"%char; "134"%char]; ["226"%char; "128"%char; "135"%char];
   ["226"%char; "128"%char; "136"%char]; ["226"%char; "128"%char; "137"%char]; ["226"%char; "128"%char; "138"%char]; ["226"%char; "128"%char; "168"%char];
   ["226"%char; "128"%char; "169"%char]; ["226"%char; "128"%char; "175"%char]; ["226"%char; "129"%char; "159"%char]; ["227"%char; "128"%char; "128"%char]].
(** The text neither starts nor ends with white space. *)
Definition bare (t : bytes) : Prop := forall w r, w ∈ white -> t <> w ++ r /\ t <> r ++ w.
(** [t] is [s] without the white space around it. *)
Definition trimmed (s t : bytes) : Prop := exists a b, s = concat a ++ t ++ concat b /\ Forall (fun w => w ∈ white) (a ++ b) /\ bare t.
