(** * Commit metadata: parsing of [git log -c --raw --numstat] (package commitmeta)

    Models /repo/ripsrc/commitmeta/commitmeta.go.  Not modelled: the git process itself and the temporary attributes
    file (174-216, the output is an input here), the [filejobs] channel (its only reader discards everything, 148-154),
    the unused [limit] (always 0) and the unused [parseEmail]. *)
From Verif.Model Require Import Base GoStrings.

(** CommitStatus (/repo/ripsrc/commitmeta/commitmeta.go:87-97). *)
Inductive cstatus := Added | Modified | Removed.
#[global] Instance cstatus_eq_dec : EqDecision cstatus.
Proof. solve_decision. Defined.

(** CommitFile (/repo/ripsrc/commitmeta/commitmeta.go:73-85). *)
Record cfile := CFile {
  cf_name : bytes;
  cf_status : cstatus;
  cf_renamed : bool;
  cf_copied : bool;
  cf_renamed_from : bytes;
  cf_renamed_to : bytes;
  cf_copied_from : bytes;
  cf_adds : Z;
  cf_dels : Z;
  cf_binary : bool }.

(** &CommitFile{Filename: fn, Status: st}: the other fields have their zero values. *)
Definition plain_file (fn : bytes) (st : cstatus) : cfile := CFile fn st false false [] [] [] 0 0 false.

(** [strconv.ParseInt s 10 32] with its error ignored (commitmeta.go:497-498): the nearest value for a number out of range, 0
    for a text that is not a number. *)
Definition parse_int32 (s : bytes) : Z :=
  match atoi s with
  | Some z => Z.max (-2147483648) (Z.min 2147483647 z)
  | None => 0
  end.

(** [toCommitStatus] (/repo/ripsrc/commitmeta/commitmeta.go:238-248). *)
Definition to_commit_status (name : bytes) : outcome cstatus :=
  if beq name (B "A") then Ret Added
  else if beq name (B "D") then Ret Removed
  else if beq name (B "M") || beq name (B "R") || beq name (B "C") || beq name (B "MM") || beq name (B "T") then Ret Modified
  else Panic (B "unknown commit status: " ++ name).

(** ** The standard library's [path.Clean] and [path.Join] *)

Definition SLASH : ascii := "/"%char.

(** [path.Clean]: the elements kept so far are in reverse order. *)
Definition clean_step (rooted : bool) (acc : list bytes) (c : bytes) : list bytes :=
  if beq c [] || beq c (B ".") then acc
  else if beq c (B "..") then
    match acc with
    | x :: r => if beq x (B "..") then c :: acc else r
    | [] => if rooted then [] else [c]
    end
  else c :: acc.
Definition path_clean (s : bytes) : bytes :=
  let rooted := has_prefix [SLASH] s in
  let body := join [SLASH] (rev (fold_left (clean_step rooted) (split_char SLASH s) [])) in
  if rooted then SLASH :: body else if beq body [] then B "." else body.

(** [path.Join]. *)
Definition path_join (l : list bytes) : bytes :=
  match filter (fun e => e <> []) l with
  | [] => []
  | l' => path_clean (join [SLASH] l')
  end.

(** ** getFilename *)

(** Greedy matching of a group of arbitrary characters (dot star) followed by [f]: the longest prefix of [s] after which [f] matches. *)
Fixpoint longest {A} (f : bytes -> option A) (s : bytes) : option (bytes * A) :=
  match s with
  | [] => match f [] with Some x => Some ([], x) | None => None end
  | a :: r => match longest f r with
              | Some (p, x) => Some (a :: p, x)
              | None => match f s with Some x => Some ([], x) | None => None end
              end
  end.

(** The literal [lit] followed by [f]. *)
Definition lit_then {A} (lit : bytes) (f : bytes -> option A) (s : bytes) : option A :=
  if has_prefix lit s then f (drop (length lit) s) else None.

(** renameRe: the four groups are dot star, separated by an opening brace, [ => ] and a closing brace (/repo/ripsrc/commitmeta/commitmeta.go:235), leftmost-first semantics: since the
    expression starts with a greedy group, a match starts at the beginning of the text. *)
Definition rename_re (s : bytes) : option (bytes * (bytes * (bytes * bytes))) :=
  longest (lit_then (B "{") (longest (lit_then (B " => ") (longest (lit_then (B "}") Some))))) s.

(** [getFilename] (/repo/ripsrc/commitmeta/commitmeta.go:273-289); only its first result is used. *)
Definition get_filename (fn : bytes) : bytes :=
  match rename_re fn with
  | Some (m1, (m2, (m3, m4))) => path_join [m1; m3; m4]
  | None => match split_str (B " => ") fn with
            | _ :: s1 :: _ => s1
            | _ => fn
            end
  end.

Section CommitMeta.
(** Points in time, Go's zero time, and [time.Parse(time.RFC3339, _)] ([None] is an error). *)
Context {T : Type} (zero_time : T) (parse_date : bytes -> option T).

(** Commit (/repo/ripsrc/commitmeta/commitmeta.go:46-63). *)
Record mcommit := MCommit {
  mc_sha : bytes;
  mc_author_name : bytes;
  mc_author_email : bytes;
  mc_committer_name : bytes;
  mc_committer_email : bytes;
  mc_date : T;
  mc_ordinal : Z;
  mc_message : bytes;
  mc_parents : list bytes;
  mc_files : gmap bytes cfile }.

(** parserState (/repo/ripsrc/commitmeta/commitmeta.go:312-319). *)
Inductive mstate := SHeader | SFiles | SNumStats | SDiff.

(** parser (/repo/ripsrc/commitmeta/commitmeta.go:321-330), with the commits sent on the channel so far.  [mp_commit] is [None]
    for the nil pointer. *)
Record mparser := MParser {
  mp_sent : list mcommit;
  mp_commit : option mcommit;
  mp_ordinal : Z;
  mp_state : mstate }.

Definition set_state (s : mstate) (p : mparser) : mparser := MParser (mp_sent p) (mp_commit p) (mp_ordinal p) s.
Definition nil_deref {A} : outcome A := Panic (B "runtime error: invalid memory address or nil pointer dereference").
(** An assignment through p.commit: panics if it is nil. *)
Definition upd_commit (f : mcommit -> mcommit) (p : mparser) : outcome mparser :=
  match mp_commit p with
  | Some c => Ret (MParser (mp_sent p) (Some (f c)) (mp_ordinal p) (mp_state p))
  | None => nil_deref
  end.

Definition set_parents x c := MCommit (mc_sha c) (mc_author_name c) (mc_author_email c) (mc_committer_name c) (mc_committer_email c) (mc_date c) (mc_ordinal c) (mc_message c) x (mc_files c).
Definition set_date x c := MCommit (mc_sha c) (mc_author_name c) (mc_author_email c) (mc_committer_name c) (mc_committer_email c) x (mc_ordinal c) (mc_message c) (mc_parents c) (mc_files c).
Definition set_author_email x c := MCommit (mc_sha c) (mc_author_name c) x (mc_committer_name c) (mc_committer_email c) (mc_date c) (mc_ordinal c) (mc_message c) (mc_parents c) (mc_files c).
Definition set_author_name x c := MCommit (mc_sha c) x (mc_author_email c) (mc_committer_name c) (mc_committer_email c) (mc_date c) (mc_ordinal c) (mc_message c) (mc_parents c) (mc_files c).
Definition set_committer_email x c := MCommit (mc_sha c) (mc_author_name c) (mc_author_email c) (mc_committer_name c) x (mc_date c) (mc_ordinal c) (mc_message c) (mc_parents c) (mc_files c).
Definition set_committer_name x c := MCommit (mc_sha c) (mc_author_name c) (mc_author_email c) x (mc_committer_email c) (mc_date c) (mc_ordinal c) (mc_message c) (mc_parents c) (mc_files c).
Definition set_message x c := MCommit (mc_sha c) (mc_author_name c) (mc_author_email c) (mc_committer_name c) (mc_committer_email c) (mc_date c) (mc_ordinal c) x (mc_parents c) (mc_files c).
Definition set_files x c := MCommit (mc_sha c) (mc_author_name c) (mc_author_email c) (mc_committer_name c) (mc_committer_email c) (mc_date c) (mc_ordinal c) (mc_message c) (mc_parents c) x.

(** The commit that is kept until the next one starts, if it was started (commitmeta.go:356-360 and 167-169). *)
Definition pending (c : option mcommit) : list mcommit :=
  match c with
  | Some c => if beq (mc_sha c) [] then [] else [c]
  | None => []
  end.

(** [strings.Index(sha, " ")]; cut there if it is positive (commitmeta.go:343-347). *)
Definition cut_sha (sha : bytes) : bytes :=
  match index_byte SP sha with
  | Some (S i) => take (S i) sha
  | _ => sha
  end.

(** parse, parserStateHeader (/repo/ripsrc/commitmeta/commitmeta.go:339-409).  A line that starts with none of the prefixes (and
    one with the parents prefix) leaves the switch and the loop. *)
Definition parse_header (buf : bytes) (p : mparser) : outcome mparser :=
  if has_prefix (B "!SHA: ") buf then
    Ret (MParser (mp_sent p ++ pending (mp_commit p))
                 (Some (MCommit (cut_sha (drop 6 buf)) [] [] [] [] zero_time (mp_ordinal p + 1)%Z [] [] ∅))
                 (mp_ordinal p + 1)%Z (mp_state p))
  else
    do p <- (if has_prefix (B "!Parents: ") buf then
               let parents := drop 10 buf in
               if beq parents [] then Ret p else upd_commit (set_parents (split_char SP parents)) p
             else Ret p);
    if has_prefix (B "!Date: ") buf then
      match parse_date (trim_space (drop 7 buf)) with
      | Some t => upd_commit (set_date t) p
      | None => match mp_commit p with
                | Some c => Err (B "error parsing commit " ++ mc_sha c)
                | None => nil_deref
                end
      end
    else if has_prefix (B "!Author: ") buf then upd_commit (set_author_email (drop 9 buf)) p
    else if has_prefix (B "!AName: ") buf then upd_commit (set_author_name (drop 8 buf)) p
    else if has_prefix (B "!Committer: ") buf then upd_commit (set_committer_email (drop 12 buf)) p
    else if has_prefix (B "!CName: ") buf then upd_commit (set_committer_name (drop 8 buf)) p
    else if has_prefix (B "!Message: ") buf then
      do p <- upd_commit (set_message (drop 10 buf)) p; Ret (set_state SFiles p)
    else Ret p.

(** parse, parserStateDiff (/repo/ripsrc/commitmeta/commitmeta.go:508-512). *)
Definition parse_diff (buf : bytes) (p : mparser) : outcome mparser :=
  if has_prefix (B "!") buf then parse_header buf (set_state SHeader p) else Ret p.

(** The changes made to a file entry by a numstat line (commitmeta.go:494-501). *)
Definition set_stats (adds dels : bytes) (f : cfile) : cfile :=
  if beq adds (B "-") then
    CFile (cf_name f) (cf_status f) (cf_renamed f) (cf_copied f) (cf_renamed_from f) (cf_renamed_to f) (cf_copied_from f)
          (cf_adds f) (cf_dels f) true
  else
    CFile (cf_name f) (cf_status f) (cf_renamed f) (cf_copied f) (cf_renamed_from f) (cf_renamed_to f) (cf_copied_from f)
          (parse_int32 adds) (parse_int32 dels) (cf_binary f).

(** parse, parserStateNumStats (/repo/ripsrc/commitmeta/commitmeta.go:472-507).  [regSplit] with the regexp [\t] (300-310) is the
    same split.  Map entries are pointers in Go, but no two keys share one, so updating the entry is the same. *)
Definition parse_numstats (buf : bytes) (p : mparser) : outcome mparser :=
  match split_char TAB buf with
  | [adds; dels; name] =>
      let fn := get_filename name in
      upd_commit (fun c =>
        let file := default (plain_file fn Modified) (mc_files c !! fn) in
        set_files (<[fn := set_stats adds dels file]> (mc_files c)) c) p
  | _ => parse_diff buf (set_state SDiff p)
  end.

Definition index_range {A} : outcome A := Panic (B "runtime error: index out of range").

(** The entries written for one raw line, in order (commitmeta.go:421-467): [TrimLeft " "] on the paths. *)
Definition raw_files (action : bytes) (paths : list bytes) : outcome (list cfile) :=
  let tl := trim_left (fun c => bool_decide (c = SP)) in
  if Nat.eqb (length action) 1 then
    match paths with
    | x :: _ => do st <- to_commit_status action; Ret [plain_file (tl x) st]
    | [] => index_range
    end
  else if has_prefix (B "R") action then
    match paths with
    | x :: y :: _ =>
        let from := tl x in let to := tl y in
        Ret [CFile from Removed true false from to [] 0 0 false; CFile to Added true false from to [] 0 0 false]
    | _ => index_range
    end
  else if has_prefix (B "C") action then
    match paths with
    | x :: y :: _ => Ret [CFile (tl y) Added false true [] [] (tl x) 0 0 false]
    | _ => index_range
    end
  else
    match paths with
    | x :: _ => do st <- to_commit_status action; Ret [plain_file (tl x) st]
    | [] => index_range
    end.

(** parse, parserStateFiles (/repo/ripsrc/commitmeta/commitmeta.go:410-471). *)
Definition parse_files (buf : bytes) (p : mparser) : outcome mparser :=
  if has_prefix (B ":") buf then
    match split_char SP buf with
    | _ :: mask :: rest =>
        if beq mask (B "100644") || beq mask (B "100755") || beq mask (B "000000") then
          match rest with
          | _ :: _ :: tok1 =>   (* tok1[4:] *)
              match split_char TAB (join [SP] tok1) with
              | action :: paths =>
                  do fs <- raw_files action paths;
                  upd_commit (fun c => set_files (fold_left (fun m f => <[cf_name f := f]> m) fs (mc_files c)) c) p
              | [] => index_range
              end
          | _ => index_range
          end
        else Ret p
    | _ => index_range
    end
  else parse_numstats buf (set_state SNumStats p).

(** [parser.parse] (/repo/ripsrc/commitmeta/commitmeta.go:332-519). *)
Definition parse_meta_line (p : mparser) (line : bytes) : outcome mparser :=
  match line with
  | [] => Ret p
  | _ => match mp_state p with
         | SHeader => parse_header line p
         | SFiles => parse_files line p
         | SNumStats => parse_numstats line p
         | SDiff => parse_diff line p
         end
  end.

(** The loop over the lines, keeping what was sent before an error or a panic. *)
Fixpoint parse_meta_lines (p : mparser) (ls : list bytes) : list mcommit * outcome unit :=
  match ls with
  | [] => (mp_sent p ++ pending (mp_commit p), Ret tt)
  | l :: r => match parse_meta_line p l with
              | Ret p' => parse_meta_lines p' r
              | Err e => (mp_sent p, Err e)
              | Panic m => (mp_sent p, Panic m)
              end
  end.

(** [Processor.Run] (/repo/ripsrc/commitmeta/commitmeta.go:135-172) on the output of git: the commits sent on the channel and the
    returned error.  The scanner has the default limit and its error is not looked at.  [RunSlice] (101-113) returns the same list. *)
Definition run_meta (out : bytes) : list mcommit * outcome unit :=
  parse_meta_lines (MParser [] None 0 SHeader) (scan default_max out).1.

(** [Processor.RunMap] (/repo/ripsrc/commitmeta/commitmeta.go:115-133). *)
Definition run_map (out : bytes) : gmap bytes mcommit * outcome unit :=
  let '(cs, e) := run_meta out in (fold_left (fun m c => <[mc_sha c := c]> m) cs ∅, e).

End CommitMeta.
Arguments mcommit T : clear implicits.
Arguments mparser T : clear implicits.

(** The arguments of git log (/repo/ripsrc/commitmeta/commitmeta.go:186-213) that select commits: [from] is CommitFromIncl. *)
Definition meta_args (from : bytes) (non_incl all_branches : bool) (wanted : list bytes) : list bytes :=
  if beq from [] then (if all_branches then [B "--all"] else [])
  else (if all_branches then wanted else []) ++ [from ++ if non_incl then B "..HEAD" else B "^..HEAD"].
