(** * The records of a checkpoint and their encoding

    /repo/ripsrc/history3/process/repo/disk/disk.go and disk_gen.go (EncodeMsg / DecodeMsg of the four record types; MarshalMsg and
    UnmarshalMsg produce and accept the same bytes; the type Data is not used by the program).
    The primitives belong to the library github.com/tinylib/msgp, whose source is not in /repo: they are modelled after the
    MessagePack format with the encodings that library chooses (the shortest one).
    A stream that ends too early makes every primitive fail with "unexpected EOF"; [msgp.WrapError] appends the field name, if one
    is given, to the message. *)
From Verif.Model Require Import Base.

(** ** Primitives (library) *)
Definition byte (n : N) : ascii := ascii_of_N n.
(** Big-endian numbers of [k] bytes. *)
Fixpoint be (k : nat) (n : N) : bytes :=
  match k with
  | O => []
  | S k' => byte ((n / 256 ^ N.of_nat k') mod 256) :: be k' n
  end.
Fixpoint unbe (acc : N) (l : bytes) : N :=
  match l with [] => acc | c :: r => unbe (acc * 256 + N_of_ascii c)%N r end.

Definition len (b : bytes) : N := N.of_nat (length b).

Definition write_uint64 (n : N) : bytes :=
  if (n <? 128)%N then [byte n]
  else if (n <? 256)%N then byte 204 :: be 1 n
  else if (n <? 65536)%N then byte 205 :: be 2 n
  else if (n <? 4294967296)%N then byte 206 :: be 4 n
  else byte 207 :: be 8 n.
Definition write_string (s : bytes) : bytes :=
  (if (len s <? 32)%N then [byte (160 + len s)]
   else if (len s <? 256)%N then byte 217 :: be 1 (len s)
   else if (len s <? 65536)%N then byte 218 :: be 2 (len s)
   else byte 219 :: be 4 (len s)) ++ s.
Definition write_bytes (s : bytes) : bytes :=
  (if (len s <? 256)%N then byte 196 :: be 1 (len s)
   else if (len s <? 65536)%N then byte 197 :: be 2 (len s)
   else byte 198 :: be 4 (len s)) ++ s.
Definition write_array_header (n : N) : bytes :=
  if (n <? 16)%N then [byte (144 + n)]
  else if (n <? 65536)%N then byte 220 :: be 2 n
  else byte 221 :: be 4 n.
Definition write_bool (b : bool) : bytes := [byte (if b then 195 else 194)].

(** What a primitive read returns: a value and the rest of the stream, "unexpected EOF", or another error. *)
Inductive pres (A : Type) : Type := POk (a : A) (rest : bytes) | PEof | PBad.
Arguments POk {A} a rest.
Arguments PEof {A}.
Arguments PBad {A}.
Definition pbind {A C} (p : pres A) (f : A -> bytes -> pres C) : pres C :=
  match p with POk a r => f a r | PEof => PEof | PBad => PBad end.

Definition read_lead (s : bytes) : pres N := match s with [] => PEof | c :: r => POk (N_of_ascii c) r end.
Definition read_n (n : N) (s : bytes) : pres bytes :=
  if (n <=? len s)%N then POk (take (N.to_nat n) s) (drop (N.to_nat n) s) else PEof.
Definition read_be (k : nat) (s : bytes) : pres N :=
  pbind (read_n (N.of_nat k) s) (fun b r => POk (unbe 0 b) r).
(** A signed number of [k] bytes, refused if negative. *)
Definition read_int (k : nat) (s : bytes) : pres N :=
  pbind (read_be k s) (fun n r => if (2 * n <? 256 ^ N.of_nat k)%N then POk n r else PBad).

Definition read_uint64 (s : bytes) : pres N :=
  pbind (read_lead s) (fun t r =>
    if (t <? 128)%N then POk t r
    else if (t =? 204)%N then read_be 1 r
    else if (t =? 205)%N then read_be 2 r
    else if (t =? 206)%N then read_be 4 r
    else if (t =? 207)%N then read_be 8 r
    else if (t =? 208)%N then read_int 1 r
    else if (t =? 209)%N then read_int 2 r
    else if (t =? 210)%N then read_int 4 r
    else if (t =? 211)%N then read_int 8 r
    else PBad).
(** The length of a string. *)
Definition read_str_header (t : N) (r : bytes) : option (pres N) :=
  if (160 <=? t)%N && (t <? 192)%N then Some (POk (t - 160)%N r)
  else if (t =? 217)%N then Some (read_be 1 r)
  else if (t =? 218)%N then Some (read_be 2 r)
  else if (t =? 219)%N then Some (read_be 4 r)
  else None.
Definition read_bin_header (t : N) (r : bytes) : option (pres N) :=
  if (t =? 196)%N then Some (read_be 1 r)
  else if (t =? 197)%N then Some (read_be 2 r)
  else if (t =? 198)%N then Some (read_be 4 r)
  else None.
Definition read_string (s : bytes) : pres bytes :=
  pbind (read_lead s) (fun t r =>
    match read_str_header t r with Some p => pbind p read_n | None => PBad end).
Definition read_bytes (s : bytes) : pres bytes :=
  pbind (read_lead s) (fun t r =>
    match read_bin_header t r with Some p => pbind p read_n | None => PBad end).
(** A key of a map may be a string or binary. *)
Definition read_key (s : bytes) : pres bytes :=
  pbind (read_lead s) (fun t r =>
    match read_str_header t r with
    | Some p => pbind p read_n
    | None => match read_bin_header t r with Some p => pbind p read_n | None => PBad end
    end).
Definition read_map_header (s : bytes) : pres N :=
  pbind (read_lead s) (fun t r =>
    if (128 <=? t)%N && (t <? 144)%N then POk (t - 128)%N r
    else if (t =? 222)%N then read_be 2 r
    else if (t =? 223)%N then read_be 4 r
    else PBad).
Definition read_array_header (s : bytes) : pres N :=
  pbind (read_lead s) (fun t r =>
    if (144 <=? t)%N && (t <? 160)%N then POk (t - 144)%N r
    else if (t =? 220)%N then read_be 2 r
    else if (t =? 221)%N then read_be 4 r
    else PBad).
Definition read_bool (s : bytes) : pres bool :=
  pbind (read_lead s) (fun t r => if (t =? 195)%N then POk true r else if (t =? 194)%N then POk false r else PBad).
Fixpoint read_uint64s (n : nat) (s : bytes) : pres (list N) :=
  match n with
  | O => POk [] s
  | S n' => pbind (read_uint64 s) (fun x r => pbind (read_uint64s n' r) (fun xs r' => POk (x :: xs) r'))
  end.

(** ** The records (disk.go:12-34) *)
Record drow := DRow { dr_commit : bytes; dr_path : bytes; dr_blame : N }.
Record dblame := DBlame { db_pointer : N; db_commit : bytes; db_lines : list N; db_binary : bool }.
Record dline := DLine { dl_pointer : N; dl_commit : bytes; dl_data : N }.
Record dldata := DLData { dd_pointer : N; dd_data : bytes }.

(** disk_gen.go:76-126 (Blame) *)
Definition enc_blame (z : dblame) : bytes :=
  [byte 132; byte 161; byte 112] ++ write_uint64 (db_pointer z) ++
  [byte 161; byte 99] ++ write_string (db_commit z) ++
  [byte 162; byte 108; byte 112] ++ write_array_header (N.of_nat (length (db_lines z))) ++ concat (map write_uint64 (db_lines z)) ++
  [byte 162; byte 105; byte 98] ++ write_bool (db_binary z).
(** disk_gen.go:902-935 (DataRow) *)
Definition enc_row (z : drow) : bytes :=
  [byte 131; byte 161; byte 99] ++ write_string (dr_commit z) ++
  [byte 161; byte 112] ++ write_string (dr_path z) ++
  [byte 162; byte 98; byte 112] ++ write_uint64 (dr_blame z).
(** disk_gen.go:1055-1088 (Line) *)
Definition enc_line (z : dline) : bytes :=
  [byte 131; byte 161; byte 112] ++ write_uint64 (dl_pointer z) ++
  [byte 161; byte 99] ++ write_string (dl_commit z) ++
  [byte 163; byte 108; byte 100; byte 112] ++ write_uint64 (dl_data z).
(** disk_gen.go:1202-1225 (LineData) *)
Definition enc_ldata (z : dldata) : bytes :=
  [byte 130; byte 161; byte 112] ++ write_uint64 (dd_pointer z) ++
  [byte 161; byte 100] ++ write_bytes (dd_data z).

(** The result of DecodeMsg; [DEof] is the error with the message "unexpected EOF" and no field name. *)
Inductive dres (A : Type) : Type := DOk (a : A) (rest : bytes) | DEof | DFail.
Arguments DOk {A} a rest.
Arguments DEof {A}.
Arguments DFail {A}.

(** An error in a field gets the field's name. *)
Definition in_field {A C} (p : pres A) (f : A -> C) : dres C :=
  match p with POk a r => DOk (f a) r | PEof | PBad => DFail end.

(** The loop over the entries of a map, common to all DecodeMsg functions (disk_gen.go:14-73, 859-898, 1012-1052, 1165-1199):
    [field] treats the known keys; other keys are skipped with [skip] (library). *)
Section decode.
  Context (skip : bytes -> pres unit) {R : Type} (field : bytes -> R -> bytes -> option (dres R)).
  Fixpoint dec_fields (n : nat) (z : R) (s : bytes) : dres R :=
    match n with
    | O => DOk z s
    | S n' =>
        match read_key s with
        | PEof => DEof
        | PBad => DFail
        | POk key r =>
            match match field key z r with
                  | Some d => d
                  | None => match skip r with POk _ r' => DOk z r' | PEof => DEof | PBad => DFail end
                  end with
            | DOk z' r' => dec_fields n' z' r'
            | DEof => DEof
            | DFail => DFail
            end
        end
    end.
  Definition dec_map (zero : R) (s : bytes) : dres R :=
    match read_map_header s with
    | PEof => DEof
    | PBad => DFail
    | POk n r => dec_fields (N.to_nat n) zero r
    end.
End decode.

(** disk_gen.go:28-62 *)
Definition field_blame (key : bytes) (z : dblame) (s : bytes) : option (dres dblame) :=
  if beq key (B "p") then Some (in_field (read_uint64 s) (fun x => DBlame x (db_commit z) (db_lines z) (db_binary z)))
  else if beq key (B "c") then Some (in_field (read_string s) (fun x => DBlame (db_pointer z) x (db_lines z) (db_binary z)))
  else if beq key (B "lp") then
    Some (in_field (pbind (read_array_header s) (fun n r => read_uint64s (N.to_nat n) r))
                   (fun x => DBlame (db_pointer z) (db_commit z) x (db_binary z)))
  else if beq key (B "ib") then Some (in_field (read_bool s) (fun x => DBlame (db_pointer z) (db_commit z) (db_lines z) x))
  else None.
(** disk_gen.go:871-889 *)
Definition field_row (key : bytes) (z : drow) (s : bytes) : option (dres drow) :=
  if beq key (B "c") then Some (in_field (read_string s) (fun x => DRow x (dr_path z) (dr_blame z)))
  else if beq key (B "p") then Some (in_field (read_string s) (fun x => DRow (dr_commit z) x (dr_blame z)))
  else if beq key (B "bp") then Some (in_field (read_uint64 s) (fun x => DRow (dr_commit z) (dr_path z) x))
  else None.
(** disk_gen.go:1024-1042 *)
Definition field_line (key : bytes) (z : dline) (s : bytes) : option (dres dline) :=
  if beq key (B "p") then Some (in_field (read_uint64 s) (fun x => DLine x (dl_commit z) (dl_data z)))
  else if beq key (B "c") then Some (in_field (read_string s) (fun x => DLine (dl_pointer z) x (dl_data z)))
  else if beq key (B "ldp") then Some (in_field (read_uint64 s) (fun x => DLine (dl_pointer z) (dl_commit z) x))
  else None.
(** disk_gen.go:1177-1189 *)
Definition field_ldata (key : bytes) (z : dldata) (s : bytes) : option (dres dldata) :=
  if beq key (B "p") then Some (in_field (read_uint64 s) (fun x => DLData x (dd_data z)))
  else if beq key (B "d") then Some (in_field (read_bytes s) (fun x => DLData (dd_pointer z) x))
  else None.

Definition dec_blame skip := dec_map skip field_blame (DBlame 0 [] [] false).
Definition dec_row skip := dec_map skip field_row (DRow [] [] 0).
Definition dec_line skip := dec_map skip field_line (DLine 0 [] 0).
Definition dec_ldata skip := dec_map skip field_ldata (DLData 0 []).

(** ** Streams of records (reader.go: the four loops; msgIsEOF, reader.go:179-184)

    Records are read until the error is exactly "unexpected EOF" ([true]); any other error is returned ([false]).
    The fuel is the length of the stream: a record is never empty. *)
Fixpoint dec_stream {R} (dec : bytes -> dres R) (fuel : nat) (s : bytes) : list R * bool :=
  match dec s with
  | DEof => ([], true)
  | DFail => ([], false)
  | DOk z r => match fuel with O => ([], false) | S f => let x := dec_stream dec f r in (z :: x.1, x.2) end
  end.
Definition read_stream {R} (dec : bytes -> dres R) (s : bytes) : list R * bool := dec_stream dec (length s) s.
Definition write_stream {R} (enc : R -> bytes) (l : list R) : bytes := concat (map enc l).
