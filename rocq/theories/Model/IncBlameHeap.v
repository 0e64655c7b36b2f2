(** * incblame.Apply and ApplyMerge with Go's pointer structure

    Same code as in [IncBlame.v] (/repo/ripsrc/history3/incblame/apply.go:81-174, apply_merge2.go:8-60), but with line objects and
    backing arrays of slices on an explicit heap, so that aliasing between old and new blame is visible. *)
From Verif.Model Require Import Base GoStrings IncBlame.

(** [h_lines !! p] is the Line object at address [p]; [h_arrs !! a] the backing array (of line pointers) at address [a]. *)
Record heap := Heap { h_lines : list line; h_arrs : list (list nat) }.
(** A Blame whose Lines slice refers to a whole backing array (slices of blame data are never re-sliced). *)
Record hblame := HBlame { hb_commit : bytes; hb_arr : nat; hb_binary : bool }.

Definition alloc_line (h : heap) (l : line) : heap * nat :=
  (Heap (h_lines h ++ [l]) (h_arrs h), length (h_lines h)).
Definition alloc_arr (h : heap) (a : list nat) : heap * nat :=
  (Heap (h_lines h) (h_arrs h ++ [a]), length (h_arrs h)).
Definition write_arr (h : heap) (a i p : nat) : heap :=
  Heap (h_lines h) (alter (fun l => <[ i := p ]> l) a (h_arrs h)).

(** apply.go:95-107: copied entries keep the pointer, added ones allocate a Line with its own copy of the bytes
    (copyBytes, apply.go:170-174). *)
Fixpoint alloc_res (h : heap) (commit : bytes) (res : list (nat + bytes)) : heap * list nat :=
  match res with
  | [] => (h, [])
  | inl p :: r => let '(h', ps) := alloc_res h commit r in (h', p :: ps)
  | inr d :: r => let '(h1, p) := alloc_line h (Line d commit) in
                  let '(h2, ps) := alloc_res h1 commit r in (h2, p :: ps)
  end.

(** apply.go:81-168 *)
Definition apply_h (h : heap) (file : hblame) (d : diff) (commit : bytes) : outcome (heap * hblame) :=
  if hb_binary file then Panic (B "file.IsBinary")
  else if d_binary d then Panic (B "diff.IsBinary")
  else match h_arrs h !! hb_arr file with
       | None => Panic (B "dangling slice")
       | Some ptrs =>
           do res <- apply_core ptrs (d_hunks d);
           let '(h1, ps) := alloc_res h commit res in
           let '(h2, a) := alloc_arr h1 ps in
           Ret (h2, HBlame commit a false)
       end.

(** apply_merge2.go:30-33 *)
Fixpoint apply_all_h (h : heap) (parents : list hblame) (diffs : list diff) (commit : bytes) : outcome (heap * list hblame) :=
  match parents, diffs with
  | [], _ => Ret (h, [])
  | _ :: _, [] => Panic (B "index out of range")
  | p :: ps, d :: ds =>
      do (h1, b) <- apply_h h p d commit;
      do (h2, bs) <- apply_all_h h1 ps ds commit;
      Ret (h2, b :: bs)
  end.

(** Commits of the [i]-th line of every candidate. *)
Definition cand_commits (h : heap) (cand : list hblame) (i : nat) : list bytes :=
  omap (fun c => match h_arrs h !! hb_arr c with
                 | None => None
                 | Some ps => match ps !! i with
                              | None => None
                              | Some p => l_commit <$> h_lines h !! p
                              end
                 end) cand.

(** apply_merge2.go:44-57: the loop body for line [i]: the first candidate whose line is not from the merge commit decides;
    a copy of the line object is made and stored in the result's array. *)
Definition merge_step (commit : bytes) (c0 : hblame) (cand : list hblame) (h : heap) (i : nat) : heap :=
  let cm := first_origin commit (cand_commits h cand i) in
  if beq cm commit then h
  else match h_arrs h !! hb_arr c0 with
       | None => h
       | Some ps => match ps !! i with
                    | None => h
                    | Some p => match h_lines h !! p with
                                | None => h
                                | Some l =>
                                    let '(h1, q) := alloc_line h (Line (l_data l) cm) in
                                    write_arr h1 (hb_arr c0) i q
                                end
                    end
       end.

(** Length of a blame's Lines slice. *)
Definition arr_len (h : heap) (b : hblame) : nat := length (default [] (h_arrs h !! hb_arr b)).

(** apply_merge2.go:8-60 *)
Definition apply_merge_h (h : heap) (parents : list hblame) (diffs : list diff) (commit : bytes) : outcome (heap * hblame) :=
  if existsb hb_binary parents then Panic (B "binary parent")
  else if existsb d_binary diffs then Panic (B "binary diff")
  else
    do (h1, cand) <- apply_all_h h parents diffs commit;
    match cand with
    | [] => Panic (B "index out of range")
    | c0 :: _ =>
        if forallb (fun c => Nat.eqb (arr_len h1 c) (arr_len h1 c0)) cand then
          Ret (fold_left (merge_step commit c0 cand) (seq 0 (arr_len h1 c0)) h1, c0)
        else Panic (B "not all resulting blames have the same num of lines")
    end.

(** The value a heap blame stands for. *)
Definition deref (h : heap) (b : hblame) : option blame :=
  ps ← h_arrs h !! hb_arr b;
  ls ← mapM (fun p => h_lines h !! p) ps;
  Some (Blame (hb_commit b) ls (hb_binary b)).
