(** Whole messages: C05, C07, C09, C24, C29, C53, C65-C68, C98. *)
From Verif Require Import Base LibBase Bits Env EntTerm EntPlat Registry Message.
From Verif Require Import SpecFrame SpecGeo SpecEntity SpecRange SpecMsg Demo ProofFrame ProofBody4 ProofMsg ProofMsg2 ProofRepeat.

(** C05 does not hold: three bytes crash the decoder. *)
Theorem C05_no_crash_refuted : exists env data, bytes_ok data /\ msg_decode env None data = Panic.
Proof. exact crash. Qed.
Print Assumptions C05_no_crash_refuted.
(** C65. Exactly these three-byte frames do, whatever the keys. *)
Theorem C65_crash_exact env key data : key_ok env key -> bytes_ok data ->
  (msg_decode env key data = Panic <-> exists x, data = [126; x; 126]).
Proof. exact (decode_panic env key data). Qed.
Print Assumptions C65_crash_exact.
Example C65_case : key_ok demo_env None /\ bytes_ok [126; 7; 126] /\ bytes_ok [126; 125; 126; 126].
Proof. split; [exact I|]. split; repeat constructor; cbv; congruence. Qed.

(** C07. A message whose fields fit the wire is read back: header fields as given,
    body size and packet flag as sent, body equal up to wire precision; any
    private key may be configured at the receiver. *)
Theorem C07_round_trip env rnd m e raw : m_body m = BEnt e -> encode env e = Ok raw -> wf env e -> boundary e = false ->
  hdr_fits (m_hdr m) -> Z.testbit (h_prop (m_hdr m)) 10 = false -> zlen raw <= 1023 ->
  exists data m', msg_encode env None rnd m = Ok (data, m') /\
  forall key, msg_decode env key data = Ok (Message (hdr_arrives (m_hdr m) (entity_id e) (zlen raw)) (BEnt (sent env e))).
Proof. exact (message_round_trip env rnd m e raw). Qed.
Print Assumptions C07_round_trip.
Theorem C07_header_fields h id n : hdr_fits h -> 0 <= n <= 1023 ->
  let a := hdr_arrives h id n in
  h_id a = id /\ h_icc a = h_icc h /\ h_serial a = h_serial h /\ h_packet a = h_packet h /\
  get_body_size (h_prop a) = n /\ is_u16 (h_prop a) /\
  (forall i, 10 <= i -> i <> 13 -> Z.testbit (h_prop a) i = Z.testbit (h_prop h) i) /\
  Z.testbit (h_prop a) 13 = has (h_packet h) || Z.testbit (h_prop h) 13.
Proof. exact (arrives_fields h id n). Qed.
Print Assumptions C07_header_fields.
Example C07_case : let m := Message (Header 0 0 13800138000 126 (Some (3, 2))) (BEnt (E0001 (T0001 125 512 0))) in
  hdr_fits (m_hdr m) /\ wf demo_env (E0001 (T0001 125 512 0)) /\ encode demo_env (E0001 (T0001 125 512 0)) = Ok [0; 125; 2; 0; 0] /\
  hdr_arrives (m_hdr m) 1 5 = Header 1 8197 13800138000 126 (Some (3, 2)).
Proof. cbv zeta. split; [cbv; intuition congruence|]. split; [cbv; intuition congruence|]. split; reflexivity. Qed.

(** C53. Equal bytes mean equal messages (up to wire precision). *)
Theorem C53_distinct env r1 r2 m1 m2 e1 e2 d1 d2 data m1' m2' :
  m_body m1 = BEnt e1 -> m_body m2 = BEnt e2 -> encode env e1 = Ok d1 -> encode env e2 = Ok d2 ->
  wf env e1 -> wf env e2 -> boundary e1 = false -> boundary e2 = false ->
  hdr_fits (m_hdr m1) -> hdr_fits (m_hdr m2) ->
  Z.testbit (h_prop (m_hdr m1)) 10 = false -> Z.testbit (h_prop (m_hdr m2)) 10 = false -> zlen d1 <= 1023 -> zlen d2 <= 1023 ->
  msg_encode env None r1 m1 = Ok (data, m1') -> msg_encode env None r2 m2 = Ok (data, m2') ->
  sent env e1 = sent env e2 /\ hdr_arrives (m_hdr m1) (entity_id e1) (zlen d1) = hdr_arrives (m_hdr m2) (entity_id e2) (zlen d2).
Proof. exact (plain_distinct env r1 r2 m1 m2 e1 e2 d1 d2 data m1' m2'). Qed.
Print Assumptions C53_distinct.
(** Two messages that differ only in a field Encode overwrites *)
Example C53_case : exists data m1' m2',
  msg_encode demo_env None 0 (Message (Header 7 0 5 1 None) (BEnt E0002)) = Ok (data, m1') /\
  msg_encode demo_env None 0 (Message (Header 9 31 5 1 None) (BEnt E0002)) = Ok (data, m2').
Proof. eexists. eexists. eexists. split; vm_compute; reflexivity. Qed.

(** C09 does not hold: the length is cut to 16 bits before it is checked. *)
Theorem C09_oversize_refuted env : exists m e raw, m_body m = BEnt e /\ encode env e = Ok raw /\ zlen raw > 1023 /\
  exists data m', msg_encode env None 0 m = Ok (data, m').
Proof. exact (oversize_false env). Qed.
Print Assumptions C09_oversize_refuted.
(** C66. Exactly: refused iff the length modulo 65536 exceeds 1023; otherwise that
    remainder is the length in the header. *)
Theorem C66_size_exact env rnd m e raw : m_body m = BEnt e -> encode env e = Ok raw -> hdr_fits (m_hdr m) ->
  (1023 < zlen raw mod 65536 -> msg_encode env None rnd m = Err ErrBodyTooLong) /\
  (zlen raw mod 65536 <= 1023 -> exists data m', msg_encode env None rnd m = Ok (data, m') /\
     get_body_size (h_prop (m_hdr m')) = zlen raw mod 65536).
Proof. exact (size_exact env rnd m e raw). Qed.
Print Assumptions C66_size_exact.
(** In particular C09 for bodies below 64 KiB. *)
Theorem C09_oversize_partial env rnd m e raw : m_body m = BEnt e -> encode env e = Ok raw -> hdr_fits (m_hdr m) -> zlen raw < 65536 ->
  if zlen raw <=? 1023
  then exists data m', msg_encode env None rnd m = Ok (data, m') /\ get_body_size (h_prop (m_hdr m')) = zlen raw
  else msg_encode env None rnd m = Err ErrBodyTooLong.
Proof. exact (size_below env rnd m e raw). Qed.
Print Assumptions C09_oversize_partial.
Example C66_case : exists raw, encode demo_env (E0701 (T0701 3 (repeat 7 1030))) = Ok raw /\ zlen raw = 1034 /\
  msg_encode demo_env None 0 (Message (Header 0 0 5 1 None) (BEnt (E0701 (T0701 3 (repeat 7 1030))))) = Err ErrBodyTooLong.
Proof. eexists. split; [reflexivity|]. split; vm_compute; reflexivity. Qed.

(** C24. Chunked encryption is undone by the matching key, for texts of any length ... *)
Theorem C24_chunks env pub priv rnd raw : rsa_pair env pub priv -> bytes_ok raw ->
  exists ct, encrypt_oaep env pub rnd raw = Ok ct /\ bytes_ok ct /\ zlen ct = cipher_len env pub (zlen raw) /\ decrypt_oaep env priv ct = Ok raw.
Proof. exact (encryption env pub priv rnd raw). Qed.
Print Assumptions C24_chunks.
(** ... the message arrives with the matching key and is an error without ... *)
Theorem C24_message env pub priv rnd m e raw : rsa_pair env pub priv ->
  m_body m = BEnt e -> encode env e = Ok raw -> wf env e -> boundary e = false -> hdr_fits (m_hdr m) ->
  let k := cipher_len env pub (zlen raw) in
  k <= 1023 ->
  exists data m', msg_encode env (Some pub) rnd m = Ok (data, m') /\
  msg_decode env (Some priv) data = Ok (Message (hdr_arrives (encrypted (m_hdr m)) (entity_id e) k) (BEnt (sent env e))) /\
  msg_decode env None data = Err ErrDecryptMessageFailed.
Proof. exact (secret_round_trip env pub priv rnd m e raw). Qed.
Print Assumptions C24_message.
(** ... ciphertext beyond the length field is refused ... *)
Theorem C24_too_long env pub priv rnd m e raw : rsa_pair env pub priv -> m_body m = BEnt e -> encode env e = Ok raw -> bytes_ok raw ->
  1023 < cipher_len env pub (zlen raw) mod 65536 -> msg_encode env (Some pub) rnd m = Err ErrBodyTooLong.
Proof. exact (secret_too_long env pub priv rnd m e raw). Qed.
Print Assumptions C24_too_long.
(** ... and no received message flagged as encrypted is delivered with a body when there is
    no private key, or when decryption fails. *)
Theorem C24_never_plain env data m : bytes_ok data -> msg_decode env None data = Ok m ->
  Z.testbit (h_prop (m_hdr m)) 10 = true -> m_body m = BNil.
Proof. exact (no_plain env data m). Qed.
Print Assumptions C24_never_plain.
Theorem C24_bad_cipher env priv data p h : key_ok env (Some priv) -> bytes_ok data -> carries data p -> hdr_decode p = Ok h ->
  Z.testbit (h_prop h) 10 = true -> zlen (after_header h p) mod 65536 = get_body_size (h_prop h) ->
  (forall d, decrypt_oaep env priv (after_header h p) <> Ok d) -> msg_decode env (Some priv) data = Err ErrDecryptMessageFailed.
Proof. exact (bad_cipher env priv data p h). Qed.
Print Assumptions C24_bad_cipher.
(** The toy cipher of the demonstration environment meets the contract; 100 bytes take two blocks. *)
Example C24_case : rsa_pair demo_env 1 2 /\ cipher_len demo_env 1 100 = 256.
Proof. split; [exact demo_pair|reflexivity]. Qed.

(** C29. A frame with a readable header and no encryption flag is always delivered; its
    body is nil if the length is not the one announced, the type is unknown or
    its decoder refuses it. *)
Theorem C29_isolated env key data p h : carries data p -> hdr_decode p = Ok h -> bytes_ok data ->
  Z.testbit (h_prop h) 10 = false ->
  msg_decode env key data = Ok (Message h
    (if zlen (after_header h p) mod 65536 =? get_body_size (h_prop h)
     then match decode env (h_id h) (after_header h p) with Ok (e, _) => BEnt e | _ => BNil end
     else BNil)).
Proof. exact (isolated env key data p h). Qed.
Print Assumptions C29_isolated.
(** Whatever is delivered has no body or a complete one of the announced type, in range. *)
Theorem C29_delivered env key data m : key_ok env key -> bytes_ok data -> msg_decode env key data = Ok m ->
  m_body m = BNil \/ exists e, m_body m = BEnt e /\ entity_id e = h_id (m_hdr m) /\ decoded_ok env e.
Proof. exact (delivered env key data m). Qed.
Print Assumptions C29_delivered.
(** unknown message id 0x0fff *)
Example C29_case : msg_decode demo_env None [126; 15; 255; 0; 2; 1; 56; 0; 19; 128; 0; 0; 7; 9; 9; 95; 126] =
  Ok (Message (Header 4095 2 13800138000 7 None) BNil).
Proof. vm_compute. reflexivity. Qed.

(** C67. Every received header is in range and fits the wire format again. *)
Theorem C67_received_header env key data m : bytes_ok data -> msg_decode env key data = Ok m ->
  hdr_fits (m_hdr m) /\ is_u16 (h_id (m_hdr m)) /\ has (h_packet (m_hdr m)) = Z.testbit (h_prop (m_hdr m)) 13.
Proof. exact (received_header env key data m). Qed.
Print Assumptions C67_received_header.
Example C67_case : exists m, msg_decode demo_env None [126; 15; 255; 0; 2; 1; 56; 0; 19; 128; 0; 0; 7; 9; 9; 95; 126] = Ok m.
Proof. eexists. vm_compute. reflexivity. Qed.

(** C68. Decoding into a used Message: header and body are replaced exactly when the
    frame is accepted and its body decodes; an unreadable body leaves the old one. *)
Theorem C68_into_used env key m data : msg_decode_into env key m data =
  match msg_decode env key data with
  | Ok m' => Ok (Message (m_hdr m') (match m_body m' with BNil => m_body m | b => b end), None)
  | Err e => Ok (m, Some e)
  | Panic => Panic
  end.
Proof. exact (into_used env key m data). Qed.
Print Assumptions C68_into_used.
Theorem C68_stale_body : exists env m data m', bytes_ok data /\ msg_decode_into env None m data = Ok (m', None) /\
  exists e, m_body m' = BEnt e /\ entity_id e <> h_id (m_hdr m').
Proof. exact used_stale. Qed.
Print Assumptions C68_stale_body.
(** a general response, then a frame of unknown type: the old response stays *)
Example C68_case : msg_decode_into demo_env None (Message (Header 1 5 5 1 None) (BEnt (E0001 (T0001 1 2 3))))
    [126; 15; 255; 0; 2; 1; 56; 0; 19; 128; 0; 0; 7; 9; 9; 95; 126] =
  Ok (Message (Header 4095 2 13800138000 7 None) (BEnt (E0001 (T0001 1 2 3))), None).
Proof. vm_compute. reflexivity. Qed.

(** C98. A message without a body cannot be encoded: the process panics.  Such messages
    come out of the decoder, so passing on what was received can panic. *)
Theorem C98_nil_panics env key rnd h : msg_encode env key rnd (Message h BNil) = Panic.
Proof. exact (no_body env key rnd h). Qed.
Print Assumptions C98_nil_panics.
Theorem C98_relay_panics : exists env data m, bytes_ok data /\ msg_decode env None data = Ok m /\
  forall key rnd, msg_encode env key rnd m = Panic.
Proof. exact no_relay. Qed.
Print Assumptions C98_relay_panics.
(** A nil pointer of a body type is sent as that type with no bytes, in clear even
    with a key, and arrives as what the empty body decodes to. *)
Theorem C98_typed_nil env key rnd h i : is_u16 i -> hdr_fits h ->
  exists data, msg_encode env key rnd (Message h (BNilPtr i)) = Ok (data, Message (hdr_arrives h i 0) (BNilPtr i)) /\
  (Z.testbit (h_prop h) 10 = false -> forall priv, msg_decode env priv data = Ok (Message (hdr_arrives h i 0)
     (match decode env i [] with Ok (e, _) => BEnt e | _ => BNil end))).
Proof. exact (empty_body env key rnd h i). Qed.
Print Assumptions C98_typed_nil.
(** a nil heartbeat arrives as a heartbeat, a nil general response without a body *)
Example C98_case : exists d1 d2 m1 m2,
  msg_encode demo_env (Some 1) 0 (Message (Header 0 0 5 1 None) (BNilPtr 2)) = Ok (d1, m1) /\
  msg_encode demo_env (Some 1) 0 (Message (Header 0 0 5 1 None) (BNilPtr 1)) = Ok (d2, m2) /\
  msg_decode demo_env None d1 = Ok (Message (Header 2 0 5 1 None) (BEnt E0002)) /\
  msg_decode demo_env None d2 = Ok (Message (Header 1 0 5 1 None) BNil).
Proof.
  eexists. eexists. eexists. eexists. split; [vm_compute; reflexivity|]. split; [vm_compute; reflexivity|].
  split; [vm_compute; reflexivity|vm_compute; reflexivity].
Qed.

(** C62. The message that Encode leaves holds the body that is left, and, unless that is an upload, encodes to the same frame again. *)
Theorem C62_message_again env key rnd m data m' e : is_u16 (h_prop (m_hdr m)) -> m_body m = BEnt e -> msg_encode env key rnd m = Ok (data, m') ->
  m_body m' = BEnt (encoded e) /\ ((forall x, e <> E0801 x) -> exists m'', msg_encode env key rnd m' = Ok (data, m'')).
Proof. exact (message_again env key rnd m data m' e). Qed.
Print Assumptions C62_message_again.
(** A position on the southern hemisphere: the flag is set by the first encoding. *)
Example C62_message_case : exists data m' m'', msg_encode demo_env None 0 (Message (Header 0 0 5 1 None) (BEnt (E0200 demo_loc))) = Ok (data, m') /\
  m' <> Message (Header 0 0 5 1 None) (BEnt (E0200 demo_loc)) /\ msg_encode demo_env None 0 m' = Ok (data, m'').
Proof. eexists. eexists. eexists. split; [vm_compute; reflexivity|]. split; [discriminate|vm_compute; reflexivity]. Qed.
