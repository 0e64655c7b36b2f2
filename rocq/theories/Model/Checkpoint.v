(** * Writing and reading a checkpoint: the records

    /repo/ripsrc/history3/process/repo/writer.go:30-165 and reader.go:34-184.  The repository state is modelled with its pointers:
    blame objects and line objects live at addresses (indices of two lists), because the writer stores each object once and the
    reader rebuilds the sharing.  Logging is not modelled.  Numbers are not cut at 64 bits (the counters stay below 2^64). *)
From Verif.Model Require Import Base IncBlame LogParser Msgp Process.

(** repo.go:12 with *incblame.Blame and *incblame.Line as addresses. *)
Record pblame := PBlame { pb_commit : bytes; pb_lines : list nat; pb_binary : bool }.
Record prepo := PRepo { pr_files : gmap bytes (gmap bytes nat); pr_blames : list pblame; pr_lines : list line }.

(** The state as Process.v has it: objects in place of their addresses (objects are never changed once stored, see IncBlameHeap.v). *)
Definition blame_value (S : prepo) (b : nat) : option blame :=
  pr_blames S !! b ≫= fun bl => mapM (fun q => pr_lines S !! q) (pb_lines bl) ≫= fun ls => Some (Blame (pb_commit bl) ls (pb_binary bl)).
Definition values (S : prepo) : repo := (fun fs : gmap bytes nat => omap (blame_value S) fs) <$> pr_files S.

(** ** Writer *)

(** writer.go:67-70: the line part of the writer's state: linePointerC, linePointers, lineData, and the records written so far. *)
Record lst := LSt { ls_c : N; ls_ptrs : gmap nat N; ls_hashes : gset N; ls_lines : list dline; ls_data : list dldata }.
(** The whole state: blamePointerC, blamePointers, the line part, records of blames and rows. *)
Record wst := WSt { ws_c : N; ws_ptrs : gmap nat N; ws_l : lst; ws_blames : list dblame; ws_rows : list drow }.

Section write.
  (** [hash] is xxhash.Sum64 (library). *)
  Context (hash : bytes -> N) (S : prepo).

  (** writer.go:105-138: one line of a blame. *)
  Definition write_line (s : lst) (q : nat) : outcome (lst * N) :=
    match ls_ptrs s !! q with
    | Some lp => Ret (s, lp)
    | None =>
        match pr_lines S !! q with
        | None => Panic (B "nil pointer")
        | Some l =>
            let lp := (ls_c s + 1)%N in
            let dp := hash (l_data l) in
            let known := bool_decide (dp ∈ ls_hashes s) in
            Ret (LSt lp (<[ q := lp ]> (ls_ptrs s))
                     (if known then ls_hashes s else {[ dp ]} ∪ ls_hashes s)
                     (ls_lines s ++ [DLine lp (l_commit l) dp])
                     (if known then ls_data s else ls_data s ++ [DLData dp (l_data l)]), lp)
        end
    end.
  (** writer.go:104-139 *)
  Fixpoint write_lines (s : lst) (qs : list nat) : outcome (lst * list N) :=
    match qs with
    | [] => Ret (s, [])
    | q :: r => do x <- write_line s q; do y <- write_lines x.1 r; Ret (y.1, x.2 :: y.2)
    end.

  (** writer.go:89-147: one file of a commit. *)
  Definition write_file (s : wst) (x : bytes * (bytes * nat)) : outcome wst :=
    let '(ch, (fp, b)) := x in
    match ws_ptrs s !! b with
    | Some blp => Ret (WSt (ws_c s) (ws_ptrs s) (ws_l s) (ws_blames s) (ws_rows s ++ [DRow ch fp blp]))
    | None =>
        match pr_blames S !! b with
        | None => Panic (B "nil pointer")
        | Some bl =>
            let blp := (ws_c s + 1)%N in
            do x <- write_lines (ws_l s) (pb_lines bl);
            Ret (WSt blp (<[ b := blp ]> (ws_ptrs s)) x.1
                     (ws_blames s ++ [DBlame blp (pb_commit bl) x.2 (pb_binary bl)]) (ws_rows s ++ [DRow ch fp blp]))
        end
    end.

  (** writer.go:85-149: all files of all commits; [o1] and [o2] are the iteration orders of the two maps. *)
  Definition file_list (o1 : list (bytes * gmap bytes nat) -> list (bytes * gmap bytes nat))
      (o2 : bytes -> list (bytes * nat) -> list (bytes * nat)) : list (bytes * (bytes * nat)) :=
    concat (map (fun cf : bytes * gmap bytes nat => map (pair cf.1) (o2 cf.1 (map_to_list cf.2))) (o1 (map_to_list (pr_files S)))).
  Definition wst_init : wst := WSt 0 ∅ (LSt 0 ∅ ∅ [] []) [] [].
  Definition write_records o1 o2 : outcome wst := ofold write_file wst_init (file_list o1 o2).
End write.

(** ** Reader (reader.go:76-155): records in the order they are in the files; [true] says that the file ended with
    "unexpected EOF", [false] that reading failed with another error after these records. *)
Notation stream R := (list R * bool)%type.
Definition stream_end {A} (ok : bool) (a : A) : outcome A := if ok then Ret a else Err (B "read error").

(** reader.go:76-89 *)
Definition read_ldata (l : stream dldata) : outcome (gmap N bytes) :=
  stream_end l.2 (foldl (fun (m : gmap N bytes) d => <[ dd_pointer d := dd_data d ]> m) ∅ l.1).
(** reader.go:91-112; the address of a new object is the number of objects before it. *)
Definition read_line (m : gmap N bytes) (st : gmap N nat * list line) (d : dline) : outcome (gmap N nat * list line) :=
  match m !! dl_data d with
  | None => Panic (B "line data")
  | Some v => Ret (<[ dl_pointer d := length st.2 ]> st.1, st.2 ++ [Line v (dl_commit d)])
  end.
Definition read_lines (m : gmap N bytes) (l : stream dline) : outcome (gmap N nat * list line) :=
  do x <- ofold (read_line m) (∅, []) l.1; stream_end l.2 x.
(** reader.go:114-138 *)
Definition read_blame (m : gmap N nat) (st : gmap N nat * list pblame) (d : dblame) : outcome (gmap N nat * list pblame) :=
  do ls <- omapM (fun lp => match m !! lp with Some q => Ret q | None => Panic (B "line") end) (db_lines d);
  Ret (<[ db_pointer d := length st.2 ]> st.1, st.2 ++ [PBlame (db_commit d) ls (db_binary d)]).
Definition read_blames (m : gmap N nat) (l : stream dblame) : outcome (gmap N nat * list pblame) :=
  do x <- ofold (read_blame m) (∅, []) l.1; stream_end l.2 x.
(** reader.go:140-160 *)
Definition read_row (m : gmap N nat) (fs : gmap bytes (gmap bytes nat)) (d : drow) : outcome (gmap bytes (gmap bytes nat)) :=
  match m !! dr_blame d with
  | None => Panic (B "blame")
  | Some b => Ret (<[ dr_commit d := <[ dr_path d := b ]> (default ∅ (fs !! dr_commit d)) ]> fs)
  end.
Definition read_rows (m : gmap N nat) (l : stream drow) : outcome (gmap bytes (gmap bytes nat)) :=
  do x <- ofold (read_row m) ∅ l.1; stream_end l.2 x.

(** reader.go:75-177 *)
Definition read_records (rows : stream drow) (blames : stream dblame) (lines : stream dline) (ldata : stream dldata) : outcome prepo :=
  do m1 <- read_ldata ldata;
  do m2 <- read_lines m1 lines;
  do m3 <- read_blames m2.1 blames;
  do fs <- read_rows m3.1 rows;
  Ret (PRepo fs m3.2 m2.2).

(** ** The files' contents.  Compression (gzip) is not modelled: a file is the stream of its records' bytes; since the gzip
    stream is flushed but never closed (msgp.go:42-56), reading past the end gives "unexpected EOF". *)
Record cfiles := CFiles { cf_repo : bytes; cf_blames : bytes; cf_lines : bytes; cf_ldata : bytes }.
Definition encode_files (w : wst) : cfiles :=
  CFiles (write_stream enc_row (ws_rows w)) (write_stream enc_blame (ws_blames w))
         (write_stream enc_line (ls_lines (ws_l w))) (write_stream enc_ldata (ls_data (ws_l w))).
Definition read_files (skip : bytes -> pres unit) (c : cfiles) : outcome prepo :=
  read_records (read_stream (dec_row skip) (cf_repo c)) (read_stream (dec_blame skip) (cf_blames c))
               (read_stream (dec_line skip) (cf_lines c)) (read_stream (dec_ldata skip) (cf_ldata c)).
