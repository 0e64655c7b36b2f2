(** * incblame: parsing one file's patch and applying it to blame data

    Models /repo/ripsrc/history3/incblame/{parse.go,parse_utils.go,apply.go,apply_merge2.go}. *)
From Verif.Model Require Import Base GoStrings.

(** ** Types *)

(** apply.go:28-31 (type Line). *)
Record line := Line { l_data : bytes; l_commit : bytes }.
(** apply.go:14-18 (type Blame).  Lines are values here; the pointer structure is modelled in
    [IncBlameHeap.v] (property C08) and in the checkpoint model. *)
Record blame := Blame { b_commit : bytes; b_lines : list line; b_binary : bool }.
(** The zero value incblame.Blame{}. *)
Definition blame_zero : blame := Blame [] [] false.
(** apply.go:22-24 (BlameBinaryFile). *)
Definition blame_binary_file (commit : bytes) : blame := Blame commit [] true.

(** parse.go:43-51 (type OpType). *)
Inductive optype := OpAdd | OpDel.
(** parse.go:36-41 (type HunkLocation). *)
Record hloc := HLoc { hl_op : optype; hl_off : Z; hl_lines : Z }.
(** parse.go:26-30 (type Hunk). *)
Record hunk := Hunk { hk_locs : list hloc; hk_data : bytes }.
(** parse.go:9-15 (type Diff). *)
Record diff := Diff { d_prev : bytes; d_path : bytes; d_binary : bool; d_hunks : list hunk }.
Definition diff_zero : diff := Diff [] [] false [].

#[global] Instance line_eq_dec : EqDecision line. Proof. solve_decision. Defined.
#[global] Instance blame_eq_dec : EqDecision blame. Proof. solve_decision. Defined.
#[global] Instance optype_eq_dec : EqDecision optype. Proof. solve_decision. Defined.
#[global] Instance hloc_eq_dec : EqDecision hloc. Proof. solve_decision. Defined.
#[global] Instance hunk_eq_dec : EqDecision hunk. Proof. solve_decision. Defined.
#[global] Instance diff_eq_dec : EqDecision diff. Proof. solve_decision. Defined.

(** apply.go:38-46 (Line.Eq). *)
Definition line_eq (a b : line) : bool := beq (l_commit a) (l_commit b) && beq (l_data a) (l_data b).
(** apply.go:64-79 (Blame.Eq): the length test followed by the element-wise loop. *)
Fixpoint lines_eq (a b : list line) : bool :=
  match a, b with
  | [], [] => true
  | x :: a', y :: b' => line_eq x y && lines_eq a' b'
  | _, _ => false
  end.
Definition blame_eq (a b : blame) : bool := beq (b_commit a) (b_commit b) && lines_eq (b_lines a) (b_lines b).

(** ** parseContext (parse_utils.go:18-83) *)

(** parse_utils.go:22-29: number of leading '@'. *)
Fixpoint count_lead_at (b : bytes) : nat :=
  match b with
  | c :: r => if bool_decide (c = AT) then S (count_lead_at r) else 0
  | [] => 0
  end.
(** parse_utils.go:30-40: index of the first byte at which the running number of '@' equals [target]. *)
Fixpoint find_end (target c i : nat) (b : bytes) : option nat :=
  match b with
  | [] => None
  | x :: r =>
      let c' := if bool_decide (x = AT) then S c else c in
      if Nat.eqb c' target then Some i else find_end target c' (S i) r
  end.
(** parse_utils.go:46 cutset "@ ". *)
Definition is_at_sp (c : ascii) : bool := bool_decide (c = AT) || bool_decide (c = SP).

(** parse_utils.go:48-81: one "-a,b" / "+a,b" / "-a" part.  With a single number the code stores it in [Lines]
    and leaves [Offset] at 0. *)
Definition parse_ctx_part (p : bytes) : outcome hloc :=
  match p with
  | [] | [_] => Panic (B "invalid diff context format")
  | c :: rest =>
      do op <- (if bool_decide (c = "-"%char) then Ret OpDel
                else if bool_decide (c = "+"%char) then Ret OpAdd
                else Panic (B "invalid op"));
      match split_char ","%char rest with
      | [x] => match atoi x with
               | Some n => Ret (HLoc op 0 n)
               | None => Panic (B "invalid diff context format")
               end
      | [x; y] => match atoi x with
                  | None => Panic (B "invalid diff context format")
                  | Some o => match atoi y with
                              | None => Panic (B "invalid diff context format")
                              | Some n => Ret (HLoc op o n)
                              end
                  end
      | _ => Panic (B "invalid diff context format")
      end
  end.

Definition parse_context (b0 : bytes) : outcome (list hloc) :=
  let atc := count_lead_at b0 in
  match find_end (atc * 2) 0 0 b0 with
  | None | Some 0 => Panic (B "endInd == 0")
  | Some e => omapM parse_ctx_part (split_char SP (trim is_at_sp (take e b0)))
  end.

(** ** parseDiffDecl (parse_utils.go:85-150) *)

Inductive decl_res :=
| DeclOk (from to : bytes)
| DeclMerge              (* errParseDiffDeclMerge *)
| DeclRenameWithSpaces   (* errParseDiffDeclRenameWithSpaces *)
| DeclErr.               (* any other error *)

(** parse_utils.go:108-117 (closure remPrefix). *)
Definition rem_prefix (data pr : bytes) : option bytes :=
  let d2 :=
    match data with
    | c :: r =>
        match rev r with
        | e :: mid => if bool_decide (c = QUOTE) && bool_decide (e = QUOTE) then rev mid else data
        | [] => data
        end
    | [] => data
    end in
  if Nat.leb (length d2) (length pr) || negb (has_prefix pr d2) then None
  else Some (drop (length pr) d2).

Definition diff_decl_prefix_normal : bytes := B "diff --git ".
Definition diff_decl_prefix_merge : bytes := B "diff --combined ".

Definition parse_diff_decl (d : bytes) : decl_res :=
  match d with
  | [] => DeclErr
  | _ =>
    if negb (has_prefix diff_decl_prefix_normal d) then
      if has_prefix diff_decl_prefix_merge d then DeclMerge else DeclErr
    else
      let data := drop (length diff_decl_prefix_normal) d in
      let space_count := count_byte SP data in
      if Nat.eqb space_count 0 then DeclErr
      else if Nat.eqb space_count 1 then
        match index_byte SP data with
        | None | Some 0 => DeclErr
        | Some i =>
            match rem_prefix (take i data) (B "a/") with
            | None => DeclErr
            | Some from =>
                match rem_prefix (drop (S i) data) (B "b/") with
                | None => DeclErr
                | Some to => DeclOk from to
                end
            end
        end
      else
        let mid := Nat.div2 (length data) in
        if Nat.ltb (length data) 7 || negb (Nat.odd (length data))
           || negb (beq (take 2 data) (B "a/"))
           || negb (beq (take 2 (drop (mid + 1) data)) (B "b/"))
        then DeclRenameWithSpaces
        else
          let from := drop 2 (take mid data) in
          let to := drop (mid + 3) data in
          if negb (beq from to) then DeclRenameWithSpaces else DeclOk from to
  end.

(** ** Parse (parse.go:53-227) *)

(** parse.go:61-67. *)
Inductive pstate := StParseDiff | StParsingPreMeta | StNextIsCurrName | StNextIsContext | StInPatchLines.

(** parse.go:69-82 (type parser). *)
Record parser := Parser {
  p_state : pstate;
  p_prev : bytes;
  p_path : bytes;
  p_meta : gmap bytes bytes;
  p_ctx : list hloc;
  p_lines : bytes;
  p_res : list hunk }.

(** parse.go:84-88. *)
Definition meta_rename_from : bytes := B "rename from".
Definition meta_rename_to : bytes := B "rename to".
Definition meta_new_file : bytes := B "new file".
Definition meta_deleted_file : bytes := B "deleted file".
Definition meta_binary_files : bytes := B "Binary files".
(** parse.go:93 *)
Definition wanted_meta : list bytes :=
  [meta_rename_from; meta_rename_to; meta_new_file; meta_deleted_file; meta_binary_files].

Definition parser_init : parser := Parser StParseDiff [] [] ∅ [] [] [].

Definition set_state (p : parser) (s : pstate) : parser :=
  Parser s (p_prev p) (p_path p) (p_meta p) (p_ctx p) (p_lines p) (p_res p).

(** parse.go:161-165 *)
Definition add_meta (m : gmap bytes bytes) (b : bytes) : gmap bytes bytes :=
  fold_left (fun m s => if has_prefix (s ++ B " ") b then <[ s := drop (length s + 1) b ]> m else m)
            wanted_meta m.

(** parse.go:199-212 (finishHunk). *)
Definition finish_hunk (p : parser) : parser :=
  Parser (p_state p) (p_prev p) (p_path p) (p_meta p) [] []
         (match p_ctx p with [] => p_res p | _ => p_res p ++ [Hunk (p_ctx p) (p_lines p)] end).

(** parse.go:214-217 (method parseContext). *)
Definition p_parse_context (p : parser) (b : bytes) : outcome parser :=
  do ctx <- parse_context b;
  Ret (Parser StInPatchLines (p_prev p) (p_path p) (p_meta p) ctx (p_lines p) (p_res p)).

(** parse.go:219-227 (lineInPatchLines).  Simplification: Go's [b[0:2]] on a one-byte line reads the byte after
    the line in the scanner's buffer, a newline or carriage return, so the test is false as it is here. *)
Definition line_in_patch_lines (p : parser) (b : bytes) : outcome parser :=
  if has_prefix (B "@@") b then p_parse_context (finish_hunk p) b
  else Ret (Parser (p_state p) (p_prev p) (p_path p) (p_meta p) (p_ctx p) (p_lines p ++ b ++ [NL]) (p_res p)).

(** parse.go:141-185 (line). *)
Definition p_line (p : parser) (b : bytes) : outcome parser :=
  match p_state p with
  | StParseDiff =>
      match parse_diff_decl b with
      | DeclOk f t => Ret (Parser StParsingPreMeta f t (p_meta p) (p_ctx p) (p_lines p) (p_res p))
      | DeclMerge | DeclRenameWithSpaces =>
          Ret (Parser StParsingPreMeta [] [] (p_meta p) (p_ctx p) (p_lines p) (p_res p))
      | DeclErr => Panic (B "parseDiffDecl")
      end
  | StParsingPreMeta =>
      if negb (has_prefix (B "---") b) then
        Ret (Parser (p_state p) (p_prev p) (p_path p) (add_meta (p_meta p) b) (p_ctx p) (p_lines p) (p_res p))
      else Ret (set_state p StNextIsCurrName)
  | StNextIsCurrName => Ret (set_state p StNextIsContext)
  | StNextIsContext =>
      if Nat.leb (length b) 2 then Ret p
      else if has_prefix (B "@@") b then p_parse_context p b
      else Ret p
  | StInPatchLines => line_in_patch_lines p b
  end.

(** Go map lookup of a string map: the zero value "" when the key is absent. *)
Definition get_meta (m : gmap bytes bytes) (k : bytes) : bytes := default [] (m !! k).

(** parse.go:98-139 (method Parse), and parse.go:56-59. *)
Definition finish_parse (p0 : parser) : outcome diff :=
  let p := finish_hunk p0 in
  let m := p_meta p in
  let is_new := negb (beq (get_meta m meta_new_file) []) in
  let is_del := negb (beq (get_meta m meta_deleted_file) []) in
  let is_ren := negb (beq (get_meta m meta_rename_from) []) in
  let prev1 := if is_new then [] else p_prev p in
  let path1 := if is_del then [] else p_path p in
  let hunks := if is_del then [] else p_res p in
  let bin := negb (beq (get_meta m meta_binary_files) []) in
  if is_ren then
    if beq (get_meta m meta_rename_to) [] then Panic (B "has rename from, but not rename to")
    else Ret (Diff (get_meta m meta_rename_from) (get_meta m meta_rename_to) bin hunks)
  else Ret (Diff prev1 path1 bin hunks).

Definition parse (content : bytes) : outcome diff :=
  match content with
  | [] => Ret diff_zero
  | _ =>
      let '(ts, e) := scan max_line content in
      do p <- ofold p_line parser_init ts;
      if e then Panic (B "bufio.Scanner: token too long")
      else finish_parse p
  end.

(** ** Apply (apply.go:81-168) *)

Definition no_newline_msg : bytes := B "\ No newline at end of file".

(** State of the loop: the lines collected so far ([inl] a line copied from the old file, [inr] the data of a new
    line) and oldFileIndex.  Lines are left abstract ([L]): Apply only ever copies references to old lines. *)
Record apst (L : Type) := Apst { ap_res : list (L + bytes); ap_idx : nat }.
Arguments Apst {L}. Arguments ap_res {L}. Arguments ap_idx {L}.

(** apply.go:95-98 (copyRange), a Go slice expression.  Simplification: Go only checks [to] against the capacity;
    an index between length and capacity is treated as a panic here. *)
Definition copy_range {L} (old : list L) (s : apst L) (from to : Z) : outcome (apst L) :=
  if (0 <=? from)%Z && (from <=? to)%Z && (to <=? Z.of_nat (length old))%Z then
    Ret (Apst (ap_res s ++ map inl (take (Z.to_nat to - Z.to_nat from) (drop (Z.to_nat from) old))) (ap_idx s))
  else Panic (B "slice bounds out of range").

(** apply.go:131-160: one line of a hunk's data. *)
Definition apply_line {L} (old : list L) (s : apst L) (b : bytes) : outcome (apst L) :=
  match b with
  | [] => Panic (B "could not process patch line, it was empty")
  | op :: data =>
      if bool_decide (op = SP) || bool_decide (op = TAB) then
        match old !! ap_idx s with
        | Some l => Ret (Apst (ap_res s ++ [inl l]) (S (ap_idx s)))
        | None => Panic (B "index out of range")
        end
      else if bool_decide (op = "-"%char) then Ret (Apst (ap_res s) (S (ap_idx s)))
      else if bool_decide (op = "+"%char) then Ret (Apst (ap_res s ++ [inr data]) (ap_idx s))
      else if bool_decide (op = "\"%char) then
        if beq b no_newline_msg then Ret s else Panic (B "invalid patch line")
      else Panic (B "invalid patch prefix")
  end.

(** apply.go:119-165: one hunk, given the Offset of its first location and its data. *)
Definition apply_hunk {L} (old : list L) (s : apst L) (h : Z * bytes) : outcome (apst L) :=
  let j0 := (fst h - 1)%Z in
  let j := if (j0 =? -1)%Z then 0%Z else j0 in
  do s1 <- copy_range old s (Z.of_nat (ap_idx s)) j;
  let '(ts, e) := scan max_line (snd h) in
  do s2 <- ofold (apply_line old) (Apst (ap_res s1) (Z.to_nat j)) ts;
  if e then Panic (B "bufio.Scanner: token too long") else Ret s2.

(** apply.go:115-167 for hunks already in sorted order. *)
Definition apply_sorted {L} (old : list L) (hs : list (Z * bytes)) : outcome (list (L + bytes)) :=
  do s <- ofold (apply_hunk old) (Apst [] 0) hs;
  do s' <- copy_range old s (Z.of_nat (ap_idx s)) (Z.of_nat (length old));
  Ret (ap_res s').

(** apply.go:109-113: sort.Slice by the Offset of the first location.  sort.Slice is not stable; this insertion sort is one of its
    possible results, and Props/IncBlameProps.v shows that for distinct offsets all results give the same blame. *)
Fixpoint insert_hunk (h : Z * bytes) (hs : list (Z * bytes)) : list (Z * bytes) :=
  match hs with
  | [] => [h]
  | x :: r => if (fst h <=? fst x)%Z then h :: hs else x :: insert_hunk h r
  end.
Fixpoint sort_hunks (hs : list (Z * bytes)) : list (Z * bytes) :=
  match hs with
  | [] => []
  | h :: r => insert_hunk h (sort_hunks r)
  end.

(** Locations[0].Offset of a hunk; a hunk without locations makes the sort or the loop panic (apply.go:111-112,118-120). *)
Definition hunk_key (h : hunk) : outcome (Z * bytes) :=
  match hk_locs h with
  | [] => Panic (B "no location in diff hunk")
  | l :: _ => Ret (hl_off l, hk_data h)
  end.

Definition apply_core {L} (old : list L) (hs : list hunk) : outcome (list (L + bytes)) :=
  do ks <- omapM hunk_key hs;
  apply_sorted old (sort_hunks ks).

(** apply.go:105-107 (addLine) against a copied line. *)
Definition resolve_line (commit : bytes) (x : line + bytes) : line :=
  match x with inl l => l | inr d => Line d commit end.

Definition apply (file : blame) (d : diff) (commit : bytes) : outcome blame :=
  if b_binary file then Panic (B "file.IsBinary")
  else if d_binary d then Panic (B "diff.IsBinary")
  else do res <- apply_core (b_lines file) (d_hunks d);
       Ret (Blame commit (map (resolve_line commit) res) false).

(** ** ApplyMerge (apply_merge2.go:8-60) *)

(** apply_merge2.go:46-57: commit of the first candidate line that is not the merge commit. *)
Fixpoint first_origin (commit : bytes) (cs : list bytes) : bytes :=
  match cs with
  | [] => commit
  | c :: r => if beq c commit then first_origin commit r else c
  end.

(** apply_merge2.go:43-58; [cands] have equal length (checked before). *)
Definition merge_lines (commit : bytes) (c0 : list line) (cands : list (list line)) : list line :=
  imap (fun i l =>
          Line (l_data l)
               (first_origin commit (omap (fun c : list line => l_commit <$> c !! i) cands)))
       c0.

(** apply_merge2.go:30-33; indexing diffs out of range panics. *)
Fixpoint apply_all (parents : list blame) (diffs : list diff) (commit : bytes) : outcome (list blame) :=
  match parents, diffs with
  | [], _ => Ret []
  | _ :: _, [] => Panic (B "index out of range")
  | p :: ps, d :: ds => do b <- apply p d commit; do bs <- apply_all ps ds commit; Ret (b :: bs)
  end.

Definition apply_merge (parents : list blame) (diffs : list diff) (commit : bytes) : outcome blame :=
  if existsb b_binary parents then Panic (B "binary parent")
  else if existsb d_binary diffs then Panic (B "binary diff")
  else
    do cand <- apply_all parents diffs commit;
    match cand with
    | [] => Panic (B "index out of range")
    | c0 :: _ =>
        if forallb (fun c => Nat.eqb (length (b_lines c)) (length (b_lines c0))) cand then
          Ret (Blame commit (merge_lines commit (b_lines c0) (map b_lines cand)) false)
        else Panic (B "not all resulting blames have the same num of lines")
    end.
