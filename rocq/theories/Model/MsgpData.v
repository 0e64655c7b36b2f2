(** * A checkpoint as one message, and sizes of messages

    /repo/ripsrc/history3/process/repo/disk/disk.go:5-10 (Data) and disk_gen.go: DecodeMsg, EncodeMsg, MarshalMsg and UnmarshalMsg of Data
    (224-831), Msgsize of all types (218-221, 834-852, 1002-1005, 1155-1158, 1283-1286), decoding into a value that is in use.
    Simplifications: as in Model/Msgp.v; MarshalMsg appends what EncodeMsg writes, UnmarshalMsg accepts what DecodeMsg accepts and returns the bytes
    left over; that a slice with enough room keeps its memory (disk_gen.go:43-47, 247-251) is kept as far as values are concerned. *)
From Verif.Model Require Import Base Msgp.

(** disk.go:5-10 *)
Record ddata := DData { da_rows : list drow; da_blames : list dblame; da_lines : list dline; da_ldata : list dldata }.

(** disk_gen.go:431-566: header and elements of a slice. *)
Definition enc_items {R} (enc : R -> bytes) (l : list R) : bytes := write_array_header (N.of_nat (length l)) ++ concat (map enc l).
(** disk_gen.go:428-567 (EncodeMsg of Data) *)
Definition enc_data (z : ddata) : bytes :=
  [byte 132; byte 164; byte 100; byte 97; byte 116; byte 97] ++ enc_items enc_row (da_rows z) ++
  [byte 162; byte 98; byte 108] ++ enc_items enc_blame (da_blames z) ++
  [byte 161; byte 108] ++ enc_items enc_line (da_lines z) ++
  [byte 162; byte 108; byte 100] ++ enc_items enc_ldata (da_ldata z).
(** disk_gen.go:129-148, 570-626, 938-951, 1091-1104, 1228-1238 (MarshalMsg) *)
Definition marshal {R} (enc : R -> bytes) (b : bytes) (z : R) : bytes := b ++ enc z.

(** disk_gen.go:247-251: the elements the loop decodes into: those of a slice with enough room (all of [old], which need not be in use), or new ones. *)
Definition slots {R} (zero : R) (old : list R) (n : nat) : list R := if n <=? length old then take n old else replicate n zero.
(** disk_gen.go:252-292: the loop over the elements; any error ends it, and gets the field's name. *)
Fixpoint read_items {R} (dec : R -> bytes -> dres R) (l : list R) (s : bytes) : pres (list R) :=
  match l with
  | [] => POk [] s
  | z :: l => match dec z s with DOk x r => pbind (read_items dec l r) (fun xs r' => POk (x :: xs) r') | DEof | DFail => PEof end
  end.
Definition read_slice {R} (dec : R -> bytes -> dres R) (zero : R) (old : list R) (s : bytes) : pres (list R) :=
  pbind (read_array_header s) (fun n r => read_items dec (slots zero old (N.to_nat n)) r).
(** disk_gen.go:238-422 *)
Definition field_data (skip : bytes -> pres unit) (key : bytes) (z : ddata) (s : bytes) : option (dres ddata) :=
  if beq key (B "data") then
    Some (in_field (read_slice (dec_map skip field_row) (DRow [] [] 0) (da_rows z) s) (fun x => DData x (da_blames z) (da_lines z) (da_ldata z)))
  else if beq key (B "bl") then
    Some (in_field (read_slice (dec_map skip field_blame) (DBlame 0 [] [] false) (da_blames z) s) (fun x => DData (da_rows z) x (da_lines z) (da_ldata z)))
  else if beq key (B "l") then
    Some (in_field (read_slice (dec_map skip field_line) (DLine 0 [] 0) (da_lines z) s) (fun x => DData (da_rows z) (da_blames z) x (da_ldata z)))
  else if beq key (B "ld") then
    Some (in_field (read_slice (dec_map skip field_ldata) (DLData 0 []) (da_ldata z) s) (fun x => DData (da_rows z) (da_blames z) (da_lines z) x))
  else None.
(** disk_gen.go:224-425, 629-831 (DecodeMsg, UnmarshalMsg of Data) into the value [z]. *)
Definition dec_data (skip : bytes -> pres unit) (z : ddata) (s : bytes) : dres ddata := dec_map skip (field_data skip) z s.

(** ** Msgsize.  The library's constants: Uint64Size = 9, StringPrefixSize = BytesPrefixSize = ArrayHeaderSize = 5, BoolSize = 1. *)
Definition uint64_size : nat := 9.
Definition prefix_size : nat := 5.
(** disk_gen.go:218-221 *)
Definition size_blame (z : dblame) : nat := 1 + 2 + uint64_size + 2 + prefix_size + length (db_commit z) + 3 + prefix_size + length (db_lines z) * uint64_size + 3 + 1.
(** disk_gen.go:1002-1005 *)
Definition size_row (z : drow) : nat := 1 + 2 + prefix_size + length (dr_commit z) + 2 + prefix_size + length (dr_path z) + 3 + uint64_size.
(** disk_gen.go:1155-1158 *)
Definition size_line (z : dline) : nat := 1 + 2 + uint64_size + 2 + prefix_size + length (dl_commit z) + 4 + uint64_size.
(** disk_gen.go:1283-1286 *)
Definition size_ldata (z : dldata) : nat := 1 + 2 + uint64_size + 2 + prefix_size + length (dd_data z).
(** disk_gen.go:834-852 *)
Definition size_data (z : ddata) : nat :=
  1 + 5 + prefix_size + sum_list (map size_row (da_rows z)) + 3 + prefix_size + sum_list (map size_blame (da_blames z)) +
  2 + prefix_size + sum_list (map size_line (da_lines z)) + 3 + prefix_size + sum_list (map size_ldata (da_ldata z)).
