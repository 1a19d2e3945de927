(** The bytes on the wire: C93, C94. *)
From Verif Require Import Base LibBase GoTime Decimal Env EntTerm EntPlat Registry Message.
From Verif Require Import SpecFrame SpecGeo SpecEntity SpecMsg SpecWire Demo.
From Verif Require Import ProofWire ProofWire2 ProofWire3 ProofMsg2 ProofWire5.

(** C93. Every representable body is encoded with the fields of the standard, in their
    order and widths; the fields determine the bytes. *)
Theorem C93_encode_layout env e : wf env e ->
  exists d, encode env e = Ok d /\ on_wire (layout env e) d /\ forall d', on_wire (layout env e) d' -> d' = d.
Proof. exact (encode_layout env e). Qed.
Print Assumptions C93_encode_layout.
(** Whatever has these fields is read as the body. *)
Theorem C93_decode_layout env e d : wf env e -> on_wire (layout env e) d ->
  decode env (type_number e) d = if boundary e then Err PErrInvalidBody else Ok (sent env e, counted e d).
Proof. exact (decode_layout env e d). Qed.
Print Assumptions C93_decode_layout.
(** The body consists of bytes. *)
Theorem C93_bytes env e d : wf env e -> encode env e = Ok d -> bytes_ok d.
Proof. exact (encode_bytes env e d). Qed.
Print Assumptions C93_bytes.
(** A search for media from 2024-01-01 00:00:00 to the leap day 2024-02-29 23:59:59, local time. *)
Example C93_case : let q := T8802 2 1 0 (GoTime 1704038400 0 28800) (GoTime 1709222399 0 28800) in
  wf demo_env (E8802 q) /\ on_wire (layout demo_env (E8802 q)) [2; 1; 0; 36; 1; 1; 0; 0; 0; 36; 2; 41; 35; 89; 89].
Proof. exact (conj demo_search_wf demo_search_wire). Qed.

(** C94. A message is one frame: header fields, body fields, checksum, escaped, between delimiters. *)
Theorem C94_encode_layout env rnd m e : m_body m = BEnt e -> wf env e -> hdr_fits (m_hdr m) ->
  forall d, on_wire (layout env e) d -> zlen d <= 1023 ->
  exists data m' p, msg_encode env None rnd m = Ok (data, m') /\ frame p (xor_all p) data /\
    on_wire (header_layout (type_number e) (wire_prop (h_prop (m_hdr m)) (zlen d) (has (h_packet (m_hdr m))))
              (h_icc (m_hdr m)) (h_serial (m_hdr m)) (h_packet (m_hdr m)) ++ layout env e) p.
Proof. exact (message_layout env rnd m e). Qed.
Print Assumptions C94_encode_layout.
(** Whatever is such a frame is read as the message. *)
Theorem C94_decode_layout env key h e d p data :
  wf env e -> boundary e = false -> hdr_fits h -> Z.testbit (h_prop h) 10 = false ->
  on_wire (layout env e) d -> zlen d <= 1023 ->
  on_wire (header_layout (type_number e) (wire_prop (h_prop h) (zlen d) (has (h_packet h))) (h_icc h) (h_serial h) (h_packet h) ++ layout env e) p ->
  frame p (xor_all p) data ->
  msg_decode env key data = Ok (Message (hdr_arrives h (type_number e) (zlen d)) (BEnt (sent env e))).
Proof. exact (decode_message_layout env key h e d p data). Qed.
Print Assumptions C94_decode_layout.
(** The frame consists of bytes, encrypted or not. *)
Theorem C94_bytes env key rnd m e data m' : m_body m = BEnt e -> wf env e -> 0 <= h_icc (m_hdr m) ->
  (forall pub, key = Some pub -> exists priv, rsa_pair env pub priv) ->
  msg_encode env key rnd m = Ok (data, m') -> bytes_ok data.
Proof. exact (frame_bytes env key rnd m e data m'). Qed.
Print Assumptions C94_bytes.
(** The same body in a frame; the serial number 126 is escaped. *)
Example C94_case : let h := Header 0 0 13800138000 126 None in let q := T8802 2 1 0 (GoTime 1704038400 0 28800) (GoTime 1709222399 0 28800) in
  hdr_fits h /\ wf demo_env (E8802 q) /\ boundary (E8802 q) = false /\ wire_prop 0 15 false = 15 /\
  header_layout (type_number (E8802 q)) 15 (h_icc h) (h_serial h) (h_packet h) =
    [Num 2 0x8802; Num 2 15; Dig [0; 1; 3; 8; 0; 0; 1; 3; 8; 0; 0; 0]; Num 2 126] /\
  exists m', msg_encode demo_env None 0 (Message h (BEnt (E8802 q))) =
    Ok ([126; 136; 2; 0; 15; 1; 56; 0; 19; 128; 0; 0; 125; 2; 2; 1; 0; 36; 1; 1; 0; 0; 0; 36; 2; 41; 35; 89; 89; 90; 126], m').
Proof.
  cbv zeta. split; [cbv; intuition congruence|]. split; [exact demo_search_wf|]. split; [reflexivity|]. split; [reflexivity|].
  split; [reflexivity|]. eexists. vm_compute. reflexivity.
Qed.
