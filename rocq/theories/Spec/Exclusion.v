(** * Files of patterns

    A file of patterns has one pattern on each line; empty lines and lines that begin with # are not patterns.  In a pattern a dot stands
    for itself; otherwise a pattern is a regular expression. *)
From Verif.Model Require Import Base.
From Verif.Spec Require Import Text.

(** [l] is a line of the text, ended by a newline; [l] is the line after the last newline, if there is one. *)
Definition ended_line (text l : bytes) : Prop :=
  exists a b, text = a ++ l ++ NL :: b /\ (a = [] \/ exists a', a = a' ++ [NL]) /\ NL ∉ l.
Definition unended_line (text l : bytes) : Prop :=
  exists a, text = a ++ l /\ (a = [] \/ exists a', a = a' ++ [NL]) /\ NL ∉ l /\ l <> [].
Definition a_line (text l : bytes) : Prop := ended_line text l \/ unended_line text l.

(** A line that is a pattern (without blanks, other white space around it, comments after the pattern, and stars). *)
Definition odd_char (c : ascii) : Prop := c ∈ [SP; TAB; CR; "011"%char; "012"%char; "#"%char; "*"%char].
Definition pattern_line (l : bytes) : Prop :=
  NL ∉ l /\ (forall c, c ∈ l -> ~ odd_char c) /\ bare l /\ exists c r, l = c :: r /\ c <> "!"%char.
(** The regular expression of a pattern. *)
Definition escaped (l : bytes) : bytes := concat (map (fun c => if decide (c = "."%char) then B "\." else [c]) l).
