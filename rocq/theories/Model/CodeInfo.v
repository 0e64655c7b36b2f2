(** * Records per file: blame joined with commit metadata

    Models /repo/ripsrc/code_info.go (and the result types of /repo/ripsrc/code.go:19-46).  The line counter scc
    (processor.CountStats) is a parameter: for a file it makes some sequence of calls to the callback and returns totals.
    Its calls may depend on the answers of the callback, which only depend on the content of the file, so they are a
    function of the file's name, language and content.  Not modelled: CodeInfoTimings. *)
From Verif.Model Require Import Base GoStrings IncBlame Process CommitMeta FileInfo.

(** processor.LineType of scc. *)
Inductive line_type := LBlank | LCode | LComment | LOther.
#[global] Instance line_type_eq_dec : EqDecision line_type.
Proof. solve_decision. Defined.

(** Totals computed by scc: FileJob.Lines, Code, Comment, Blank, Complexity.  Simplification: WeightedComplexity (a float copied
    from the counter to the result) is left out. *)
Record totals := Totals { t_lines : Z; t_code : Z; t_comment : Z; t_blank : Z; t_complexity : Z }.

Section CodeInfo.
Context {T L : Type} (zero_time : T).

(** BlameLine (/repo/ripsrc/code.go:37-46). *)
Record bline := BLine {
  bl_name : bytes; bl_email : bytes; bl_date : T;
  bl_comment : bool; bl_code : bool; bl_blank : bool; bl_sha : bytes }.

(** BlameResult (/repo/ripsrc/code.go:19-35). *)
Record bresult := BResult {
  br_commit : mcommit T; br_language : bytes; br_filename : bytes; br_lines : list bline; br_size : Z; br_totals : totals;
  br_skipped : bytes; br_license : option L; br_status : cstatus }.

(** The zero commit, which Go's map lookup returns for a missing key (code_info.go:18,122). *)
Definition zero_commit : mcommit T := MCommit [] [] [] [] [] zero_time 0 [] [] ∅.
Definition meta_of (meta : gmap bytes (mcommit T)) (h : bytes) : mcommit T := default zero_commit (meta !! h).

(** ** The callback *)

(** statsLine (code_info.go:189-192): the line of the record and, until it was looked at, its content. *)
Record sline := SLine { sl_line : bline; sl_content : option bytes }.

(** generatedRegexp (code_info.go:201). *)
Definition generated_re (s : bytes) : bool :=
  contains (B "GENERATED") s || contains (B "DO NOT EDIT") s || contains (B "DO NOT MODIFY") s || contains (B "machine generated") s.

Definition set_flag (t : line_type) (l : bline) : bline :=
  match t with
  | LBlank => BLine (bl_name l) (bl_email l) (bl_date l) (bl_comment l) (bl_code l) true (bl_sha l)
  | LCode => BLine (bl_name l) (bl_email l) (bl_date l) (bl_comment l) true (bl_blank l) (bl_sha l)
  | LComment => BLine (bl_name l) (bl_email l) (bl_date l) true (bl_code l) (bl_blank l) (bl_sha l)
  | LOther => l
  end.

(** statsProcessor.ProcessLine (code_info.go:203-229): lines, generated flag; and the answer. *)
Definition process_line (st : list sline * bool) (call : Z * line_type) : (list sline * bool) * bool :=
  let '(ls, gen) := st in
  let '(cur, t) := call in
  let index := (cur - 1)%Z in
  if ((0 <=? index) && (index <? Z.of_nat (length ls)))%Z then
    let i := Z.to_nat index in
    match ls !! i with
    | Some l =>
        let b := set_flag t (sl_line l) in
        match sl_content l with
        | Some src =>
            if bl_comment b then
              if generated_re src then ((<[i := SLine b None]> ls, true), false)
              else ((<[i := SLine b None]> ls, gen), true)
            else ((<[i := SLine b (sl_content l)]> ls, gen), true)
        | None => ((<[i := SLine b None]> ls, gen), true)
        end
    | None => (st, false)
    end
  else (st, false).

(** All the calls made by the counter. *)
Definition process_calls (ls : list sline) (calls : list (Z * line_type)) : list sline * bool :=
  fold_left (fun st c => (process_line st c).1) calls (ls, false).

(** generatedFile and removedFile (code_info.go:89-97). *)
Definition generated_file : bytes := B "file was a generated file".
Definition removed_file : bytes := B "File was removed".

Context (cl : classifiers L) (count_stats : bytes -> bytes -> bytes -> list (Z * line_type) * totals).
Context (meta : gmap bytes (mcommit T)).

(** blameToFileContent and blameToByteLines (code_info.go:141-154). *)
Definition file_content (b : blame) : bytes := concat (map (fun l => l_data l ++ [NL]) (b_lines b)).
Definition file_lines (b : blame) : list bytes := map l_data (b_lines b).

(** codeInfoFile (code_info.go:110-139), the lines.  A Go nil slice and an empty line cannot match the expression either way. *)
Definition stats_lines (b : blame) : list sline :=
  map (fun l => let m := meta_of meta (l_commit l) in
        SLine (BLine (mc_author_name m) (mc_author_email m) (mc_date m) false false false (l_commit l)) (Some (l_data l)))
    (b_lines b).

(** codeInfoFile with codeStats (code_info.go:110-139 and 156-187): [r] holds the fields set by the caller. *)
Definition code_info_file (p : bytes) (b : blame) (r : bresult) : bresult :=
  let content := file_content b in
  let '(calls, tot) := count_stats p (br_language r) content in
  let '(ls, gen) := process_calls (stats_lines b) calls in
  BResult (br_commit r) (if gen then [] else br_language r) (br_filename r) (br_lines r ++ map sl_line ls) (Z.of_nat (length content)) tot
          (if gen then generated_file else br_skipped r) (br_license r) (br_status r).

Definition zero_totals : totals := Totals 0 0 0 0 0.

(** One iteration of the loop of codeInfoFiles (code_info.go:40-85). *)
Definition code_info_step (commit : mcommit T) (st : gmap bytes bytes * list bresult) (pb : bytes * blame)
    : outcome (gmap bytes bytes * list bresult) :=
  let '(cache, res) := st in
  let '(p, b) := pb in
  if beq p [] then Ret st
  else match mc_files commit !! p with
       | None => Ret st
       | Some f =>
           let r := BResult commit [] p [] 0 zero_totals [] None (cf_status f) in
           if decide (cf_status f = Removed) then
             Ret (cache, res ++ [BResult commit [] p [] 0 zero_totals removed_file None (cf_status f)])
           else
             do ic <- get_info cl cache p (file_content b) (file_lines b);
             let '(i, cache) := ic in
             let r := BResult commit (i_language i) p [] 0 zero_totals [] (i_license i) (cf_status f) in
             if bool_decide (i_skip i <> []) then
               Ret (cache, res ++ [BResult commit (i_language i) p [] 0 zero_totals (i_skip i) (i_license i) (cf_status f)])
             else Ret (cache, res ++ [code_info_file p b r])
       end.

(** codeInfoFiles (code_info.go:17-87).  The order in which Go visits the map of files is [order].  The check of lines 20-38 panics
    if a file that is the target of a rename is not in the blame. *)
Definition code_info_files (order : list (bytes * blame) -> list (bytes * blame)) (cache : gmap bytes bytes) (x : result)
    : outcome (gmap bytes bytes * list bresult) :=
  let commit := meta_of meta (r_commit x) in
  if forallb (fun kf : bytes * cfile => negb (cf_renamed kf.2) || bool_decide (is_Some (r_files x !! cf_renamed_to kf.2)))
       (map_to_list (mc_files commit))
  then ofold (code_info_step commit) (cache, []) (order (map_to_list (r_files x)))
  else Panic (B "File was in stats output, but not in blame").
End CodeInfo.
Arguments bline T : clear implicits.
Arguments bresult T L : clear implicits.
Arguments sline T : clear implicits.
