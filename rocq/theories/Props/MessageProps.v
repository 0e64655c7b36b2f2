(** * C96: a whole checkpoint as one message; sizes of messages *)
From Verif.Model Require Import Base Msgp MsgpData.
From Verif.Spec Require Import Checkpoint Message.
From Verif.Proofs Require Import MsgpProofs MsgpDataProofs.

(** A Data value with any number of rows, blames, lines and texts, written and read again: into any value, also one that is in use, and with
    anything behind it.  So do its records.  [skip] is what the library does with unknown fields. *)
Theorem C96_message_round_trip skip :
  decodes_into wf_data enc_data (dec_data skip) /\
  decodes_into wf_row enc_row (dec_map skip field_row) /\ decodes_into wf_dblame enc_blame (dec_map skip field_blame) /\
  decodes_into wf_dline enc_line (dec_map skip field_line) /\ decodes_into wf_ldata enc_ldata (dec_map skip field_ldata).
Proof. split; [apply data_decodes|]. split; [apply into_decodes, into_row|]. split; [apply into_decodes, into_blame|]. split; [apply into_decodes, into_line|apply into_decodes, into_ldata]. Qed.
Print Assumptions C96_message_round_trip.

(** Marshalling appends to the given bytes; unmarshalling what was appended gives the value and the bytes behind it. *)
Theorem C96_marshal_unmarshal skip b z old rest : wf_data z ->
  take (length b) (marshal enc_data b z) = b /\ dec_data skip old (drop (length b) (marshal enc_data b z) ++ rest) = DOk z rest.
Proof. intros Hz. unfold marshal. split; [apply take_app|]. rewrite drop_app. by apply data_round_trip. Qed.
Print Assumptions C96_marshal_unmarshal.

(** Two checkpoints with the same message are the same. *)
Theorem C96_message_tells z z' : wf_data z -> wf_data z' -> enc_data z = enc_data z' -> z = z'.
Proof.
  intros Hz Hz' E. pose proof (data_round_trip (fun _ => PEof) z z [] Hz) as H1. pose proof (data_round_trip (fun _ => PEof) z' z [] Hz') as H2.
  rewrite E in H1. rewrite H1 in H2. congruence.
Qed.
Print Assumptions C96_message_tells.

(** The sizes announced are never too small, for no value at all. *)
Theorem C96_sizes : bounds size_data enc_data /\ bounds size_row enc_row /\ bounds size_blame enc_blame /\ bounds size_line enc_line /\ bounds size_ldata enc_ldata.
Proof. split; [exact data_len|]. split; [exact row_len|]. split; [exact blame_len|]. split; [exact line_len|exact ldata_len]. Qed.
Print Assumptions C96_sizes.

(** A checkpoint of one file with a blame and a line, decoded into one that holds three other rows. *)
Definition c96_z : ddata :=
  DData [DRow (B "c1") (B "a.go") 7] [DBlame 7 (B "c1") [9; 300]%N false] [DLine 9 (B "c1") 70000; DLine 300 (B "c0") 1] [DLData 70000 (B "x"); DLData 1 []].
Definition c96_old : ddata := DData (replicate 3 (DRow (B "old") (B "b") 1)) [DBlame 1 [] [5]%N true] [] [].
Example C96_hypotheses_hold :
  wf_data c96_z /\ dec_data (fun _ => PEof) c96_old (enc_data c96_z ++ B "rest") = DOk c96_z (B "rest") /\
  length (enc_data c96_z) = 111 /\ size_data c96_z = 225.
Proof.
  split; [|vm_compute; split; [reflexivity|split; reflexivity]].
  split; [by repeat constructor|]. split; [by repeat constructor|]. split; [by repeat constructor|]. split; [by repeat constructor|]. split; [done|]. split; [done|]. split; done.
Qed.
Print Assumptions C96_hypotheses_hold.
