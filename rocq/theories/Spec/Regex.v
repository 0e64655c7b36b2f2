(** * Regular expressions

    The part of Go's regular expressions (RE2 syntax, https://github.com/google/re2/wiki/Syntax) that the code uses, with its usual
    meaning; texts are sequences of bytes.  No flags: [^] and [$] are the ends of the text, [.] is anything but a newline. *)
From Verif.Model Require Import Base.

Inductive re :=
| REps
| RChr (c : ascii)
| RAny
| RSet (cs : list ascii)
| RBegin
| REnd
| RSeq (a b : re)
| RAlt (a b : re)
| ROpt (a : re)
| RStar (a : re).

(** [matches s r i j]: [r] matches the part of [s] from position [i] to position [j]. *)
Inductive matches (s : bytes) : re -> nat -> nat -> Prop :=
| m_eps i : i <= length s -> matches s REps i i
| m_chr c i : s !! i = Some c -> matches s (RChr c) i (S i)
| m_any c i : s !! i = Some c -> c <> NL -> matches s RAny i (S i)
| m_set cs c i : s !! i = Some c -> c ∈ cs -> matches s (RSet cs) i (S i)
| m_begin : matches s RBegin 0 0
| m_end : matches s REnd (length s) (length s)
| m_seq a b i j k : matches s a i j -> matches s b j k -> matches s (RSeq a b) i k
| m_alt_l a b i j : matches s a i j -> matches s (RAlt a b) i j
| m_alt_r a b i j : matches s b i j -> matches s (RAlt a b) i j
| m_opt_none a i : i <= length s -> matches s (ROpt a) i i
| m_opt_some a i j : matches s a i j -> matches s (ROpt a) i j
| m_star_none a i : i <= length s -> matches s (RStar a) i i
| m_star_more a i j k : matches s a i j -> matches s (RStar a) j k -> matches s (RStar a) i k.
(** MatchString: [r] matches some part of [s]. *)
Definition found (r : re) (s : bytes) : Prop := exists i j, matches s r i j.

(** ** Reading an expression

    alternatives ::= sequence | sequence "|" alternatives;  sequence ::= (atom | atom "?" | atom "*")*;
    atom ::= "(" alternatives ")" | "[" characters "]" | "\" c | "^" | "$" | "." | c.  The numbers bound the depth.  There is no reading
    (None) for what Go refuses and for what is not covered here: other repetitions, classes, ranges, escaped letters and digits. *)
Definition alphanumeric (c : ascii) : bool :=
  let n := N_of_ascii c in ((48 <=? n) && (n <=? 57) || (65 <=? n) && (n <=? 90) || (97 <=? n) && (n <=? 122))%N.
Fixpoint set_rest (s : bytes) : option (list ascii * bytes) :=
  match s with
  | [] => None
  | "]"%char :: r => Some ([], r)
  | "-"%char :: _ | "["%char :: _ => None
  | "\"%char :: c :: r => if alphanumeric c then None else match set_rest r with Some (cs, r') => Some (c :: cs, r') | None => None end
  | c :: r => match set_rest r with Some (cs, r') => Some (c :: cs, r') | None => None end
  end.
Definition set_of (s : bytes) : option (list ascii * bytes) :=
  match s with
  | "]"%char :: _ | "^"%char :: _ => None
  | "-"%char :: r => match set_rest r with Some (cs, r') => Some ("-"%char :: cs, r') | None => None end
  | _ => set_rest s
  end.
Definition suffixed (a : re) (s : bytes) : re * bytes :=
  match s with "?"%char :: r => (ROpt a, r) | "*"%char :: r => (RStar a, r) | _ => (a, s) end.
Fixpoint alts_of (n : nat) (s : bytes) : option (re * bytes) :=
  match n with
  | 0 => None
  | S n =>
      match seq_of n s with
      | Some (a, "|"%char :: r) => match alts_of n r with Some (b, r') => Some (RAlt a b, r') | None => None end
      | x => x
      end
  end
with seq_of (n : nat) (s : bytes) : option (re * bytes) :=
  match n with
  | 0 => None
  | S n =>
      match s with
      | [] | "|"%char :: _ | ")"%char :: _ => Some (REps, s)
      | _ => match atom_of n s with
             | Some (a, r) => let '(a, r) := suffixed a r in
                              match seq_of n r with Some (b, r') => Some (RSeq a b, r') | None => None end
             | None => None
             end
      end
  end
with atom_of (n : nat) (s : bytes) : option (re * bytes) :=
  match n with
  | 0 => None
  | S n =>
      match s with
      | "("%char :: r => match alts_of n r with Some (a, ")"%char :: r') => Some (a, r') | _ => None end
      | "["%char :: r => match set_of r with Some (cs, r') => Some (RSet cs, r') | None => None end
      | "\"%char :: r => match r with c :: r' => if alphanumeric c then None else Some (RChr c, r') | [] => None end
      | "^"%char :: r => Some (RBegin, r)
      | "$"%char :: r => Some (REnd, r)
      | "."%char :: r => Some (RAny, r)
      | "*"%char :: _ | "?"%char :: _ | "+"%char :: _ | "{"%char :: _ => None
      | c :: r => Some (RChr c, r)
      | [] => None
      end
  end.
(** The expression written as [s]. *)
Definition regex (s : bytes) : option re :=
  match alts_of (3 * length s + 3) s with Some (r, []) => Some r | _ => None end.
(** The expression written as [e] matches some part of [s]. *)
Definition matched_by (e s : bytes) : Prop := exists r, regex e = Some r /\ found r s.
(** [e] has a reading. *)
Definition readable (e : bytes) : Prop := exists r, regex e = Some r.
