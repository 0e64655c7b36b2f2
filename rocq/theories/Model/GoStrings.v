(** * The parts of Go's standard library the code relies on

    Models of [strings], [bytes], [strconv] and [bufio.Scanner] functions, as used throughout /repo.  The Go
    standard library is not part of /repo; these are written from its documented behaviour. *)
From Verif.Model Require Import Base.

(** [strings.HasPrefix], and the local [startsWith]
    (/repo/ripsrc/history3/incblame/parse_utils.go:11-16, /repo/ripsrc/history3/process/parser/parser.go:185-190). *)
Fixpoint has_prefix (p s : bytes) : bool :=
  match p, s with
  | [], _ => true
  | a :: p', b :: s' => bool_decide (a = b) && has_prefix p' s'
  | _ :: _, [] => false
  end.

Definition has_suffix (p s : bytes) : bool := has_prefix (rev p) (rev s).

(** [countByte] (/repo/ripsrc/history3/incblame/parse_utils.go:152-159). *)
Fixpoint count_byte (c : ascii) (s : bytes) : nat :=
  match s with
  | [] => 0
  | a :: r => (if bool_decide (a = c) then 1 else 0) + count_byte c r
  end.

(** [bytes.IndexByte]; [None] is Go's -1. *)
Fixpoint index_byte (c : ascii) (s : bytes) : option nat :=
  match s with
  | [] => None
  | a :: r => if bool_decide (a = c) then Some 0 else S <$> index_byte c r
  end.

(** [strings.Split s sep] for a one-byte separator; never returns an empty list. *)
Fixpoint split_char (c : ascii) (s : bytes) : list bytes :=
  match s with
  | [] => [[]]
  | a :: r =>
      if bool_decide (a = c) then [] :: split_char c r
      else match split_char c r with
           | [] => [[a]]
           | l :: ls => (a :: l) :: ls
           end
  end.

(** First occurrence of [sep] in [s]: the text before and after it.  [strings.SplitN s sep 2] is
    [cut sep s] when [sep] occurs. *)
Fixpoint cut (sep s : bytes) : option (bytes * bytes) :=
  if has_prefix sep s then Some ([], drop (length sep) s)
  else match s with
       | [] => None
       | a :: r => match cut sep r with
                   | Some (x, y) => Some (a :: x, y)
                   | None => None
                   end
       end.

(** [strings.Contains]. *)
Definition contains (sep s : bytes) : bool := match cut sep s with Some _ => true | None => false end.

(** [strings.SplitN s sep n] for n >= 1 (and sep non-empty). *)
Fixpoint splitn (n : nat) (sep s : bytes) : list bytes :=
  match n with
  | 0 => []
  | 1 => [s]
  | S n' => match cut sep s with
            | Some (x, y) => x :: splitn n' sep y
            | None => [s]
            end
  end.

(** [strings.Split s sep] for a non-empty multi-byte separator. *)
Definition split_str (sep s : bytes) : list bytes := splitn (S (S (length s))) sep s.

(** [strings.Join]. *)
Fixpoint join (sep : bytes) (l : list bytes) : bytes :=
  match l with
  | [] => []
  | [x] => x
  | x :: r => x ++ sep ++ join sep r
  end.

(** [bytes.Trim s cutset]: remove leading and trailing bytes that are in the set. *)
Fixpoint trim_left (f : ascii -> bool) (s : bytes) : bytes :=
  match s with
  | [] => []
  | a :: r => if f a then trim_left f r else s
  end.
Definition trim_right (f : ascii -> bool) (s : bytes) : bytes := rev (trim_left f (rev s)).
Definition trim (f : ascii -> bool) (s : bytes) : bytes := trim_right f (trim_left f s).

(** ** [strings.TrimSpace], [bytes.TrimSpace] *)

(** White space in ASCII. *)
Definition is_space (c : ascii) : bool :=
  bool_decide (c = SP) || bool_decide (c = TAB) || bool_decide (c = NL) || bool_decide (c = CR)
  || bool_decide (c = "011"%char) || bool_decide (c = "012"%char).
(** The other characters of [unicode.IsSpace], in UTF-8: U+0085 and U+00A0; U+1680, U+2000 to U+200A, U+2028, U+2029, U+202F, U+205F and U+3000.
    (Bytes that are not UTF-8 are not white space.) *)
Definition space2 (a b : ascii) : bool := bool_decide (a = "194"%char) && existsb (fun x => bool_decide (b = x)) ["133"%char; "160"%char].
Definition space3 (a b c : ascii) : bool :=
  (bool_decide (a = "225"%char) && bool_decide (b = "154"%char) && bool_decide (c = "128"%char))
  || (bool_decide (a = "226"%char) && bool_decide (b = "128"%char) && existsb (fun x => bool_decide (c = x))
       ["128"%char; "129"%char; "130"%char; "131"%char; "132"%char; "133"%char; "134"%char; "135"%char; "136"%char; "137"%char; "138"%char; "168"%char; "169"%char; "175"%char])
  || (bool_decide (a = "226"%char) && bool_decide (b = "129"%char) && bool_decide (c = "159"%char))
  || (bool_decide (a = "227"%char) && bool_decide (b = "128"%char) && bool_decide (c = "128"%char)).
(** Characters of one, two ([p2]) and three bytes ([p3]) are removed from the front. *)
Fixpoint trim_runes (p2 : ascii -> ascii -> bool) (p3 : ascii -> ascii -> ascii -> bool) (s : bytes) : bytes :=
  match s with
  | [] => []
  | a :: r =>
      if is_space a then trim_runes p2 p3 r else
      match r with
      | [] => s
      | b :: r2 =>
          if p2 a b then trim_runes p2 p3 r2 else
          match r2 with
          | [] => s
          | c :: r3 => if p3 a b c then trim_runes p2 p3 r3 else s
          end
      end
  end.
Definition trim_space (s : bytes) : bytes :=
  rev (trim_runes (fun b a => space2 a b) (fun c b a => space3 a b c) (rev (trim_runes space2 space3 s))).

(** [strconv.Atoi] for the decimal numerals git prints: an optional sign followed by at least one digit;
    [None] is an error.  Simplification: ints are unbounded (Go errors above 2^63-1). *)
Definition digit_val (c : ascii) : option Z :=
  let n := N_of_ascii c in
  if ((48 <=? n) && (n <=? 57))%N then Some (Z.of_N n - 48)%Z else None.
Fixpoint atoi_digits (acc : Z) (s : bytes) : option Z :=
  match s with
  | [] => Some acc
  | c :: r => match digit_val c with
              | Some d => atoi_digits (acc * 10 + d)%Z r
              | None => None
              end
  end.
Definition atoi (s : bytes) : option Z :=
  match s with
  | [] => None
  | c :: r =>
      if bool_decide (c = "-"%char) then match r with [] => None | _ => Z.opp <$> atoi_digits 0 r end
      else if bool_decide (c = "+"%char) then match r with [] => None | _ => atoi_digits 0 r end
      else atoi_digits 0 s
  end.

(** ** [bufio.Scanner] with the default split function [bufio.ScanLines] *)

(** Raw lines of the input: the bytes between newlines; a final line need not be terminated, and an empty
    final line is not a line. *)
Fixpoint raw_lines (d : bytes) : list bytes :=
  match d with
  | [] => []
  | c :: r =>
      if bool_decide (c = NL) then [] :: raw_lines r
      else match raw_lines r with
           | [] => [[c]]
           | l :: ls => (c :: l) :: ls
           end
  end.

(** bufio.dropCR: remove one trailing carriage return. *)
Fixpoint drop_cr (l : bytes) : bytes :=
  match l with
  | [] => []
  | [c] => if bool_decide (c = CR) then [] else [c]
  | c :: r => c :: drop_cr r
  end.

(** Tokens delivered by [Scan], and whether [Err] is non-nil afterwards (bufio.ErrTooLong): a raw line of
    [max] or more bytes does not fit into the scanner's buffer together with its newline. *)
Fixpoint scan_raw (max : N) (ls : list bytes) : list bytes * bool :=
  match ls with
  | [] => ([], false)
  | l :: r =>
      if (max <=? N.of_nat (length l))%N then ([], true)
      else let '(ts, e) := scan_raw max r in (drop_cr l :: ts, e)
  end.
Definition scan (max : N) (d : bytes) : list bytes * bool := scan_raw max (raw_lines d).

(** maxLine (/repo/ripsrc/history3/incblame/maxline.go:3-4, /repo/ripsrc/history3/process/parser/parser.go:65-66). *)
Definition max_line : N := 100000000%N.
(** bufio.MaxScanTokenSize, the default limit (used by commitmeta, gitexec readers). *)
Definition default_max : N := 65536%N.
