(** Encrypted frames on the wire: C200. *)
From Verif Require Import Base LibBase Bits GoTime Env EntTerm EntPlat Registry Message Sha1 Rsa.
From Verif Require Import SpecFrame SpecGeo SpecEntity SpecMsg SpecWire SpecRsa SpecSha SpecSealed Demo ProofSha3 ProofWire2 ProofWire3 ProofSealed DemoRsa.

(** C200. An encrypted message goes out as a frame with the header of the standard, the encryption flag set and the length of the
    ciphertext; behind it the body of the standard in pieces, each padded with a seed of its own and raised to the power of the key. *)
Theorem C200_sent env keys seeds pub k rnd m e d :
  takes_bytes k (rk_n (keys pub)) -> 2 <= rk_e (keys pub) <= 2 ^ 31 - 1 -> 42 < k < 2 ^ 32 -> (forall r, bytes_ok (seeds r) /\ zlen (seeds r) = 20) ->
  let env' := rsa_env env keys seeds in let size := (zlen d + k - 43) / (k - 42) * k in let h := m_hdr m in
  m_body m = BEnt e -> wf env' e -> hdr_fits h -> on_wire (layout env' e) d -> size <= 1023 ->
  exists data m' hd c, msg_encode env' (Some pub) rnd m = Ok (data, m') /\ frame (hd ++ c) (xor_all (hd ++ c)) data /\ zlen c = size /\
    on_wire (header_layout (type_number e) (wire_prop (Z.setbit (h_prop h) 10) size (has (h_packet h))) (h_icc h) (h_serial h) (h_packet h)) hd /\
    sealed (rk_n (keys pub)) (rk_e (keys pub)) k (fun i => seeds (rnd + i)) d c.
Proof. exact (sealed_sent env keys seeds pub k rnd m e d). Qed.
Print Assumptions C200_sent.
(** Any such frame, whoever made it, is read as the message whose body the pieces open to ... *)
Theorem C200_arrives env keys seeds priv k h e hd c d data :
  takes_bytes k (rk_n (keys priv)) -> 2 <= rk_e (keys priv) <= 2 ^ 31 - 1 -> 0 < rk_d (keys priv) -> 42 <= k < 2 ^ 32 ->
  let env' := rsa_env env keys seeds in
  wf env' e -> boundary e = false -> hdr_fits h -> Z.testbit (h_prop h) 10 = true -> bytes_ok c -> zlen c <= 1023 ->
  on_wire (layout env' e) d -> opened (rk_n (keys priv)) (rk_d (keys priv)) k c d ->
  on_wire (header_layout (type_number e) (wire_prop (h_prop h) (zlen c) (has (h_packet h))) (h_icc h) (h_serial h) (h_packet h)) hd ->
  frame (hd ++ c) (xor_all (hd ++ c)) data ->
  msg_decode env' (Some priv) data = Ok (Message (hdr_arrives h (type_number e) (zlen c)) (BEnt (sent env' e))).
Proof. exact (sealed_arrives env keys seeds priv k h e hd c d data). Qed.
Print Assumptions C200_arrives.
(** ... also when that is no body of its type; when they do not open, or without the key, it is refused. *)
Theorem C200_read env keys seeds priv k h id hd c data :
  takes_bytes k (rk_n (keys priv)) -> 2 <= rk_e (keys priv) <= 2 ^ 31 - 1 -> 0 < rk_d (keys priv) -> 42 <= k < 2 ^ 32 ->
  let env' := rsa_env env keys seeds in
  hdr_fits h -> Z.testbit (h_prop h) 10 = true -> is_u16 id -> bytes_ok c -> zlen c <= 1023 ->
  on_wire (header_layout id (wire_prop (h_prop h) (zlen c) (has (h_packet h))) (h_icc h) (h_serial h) (h_packet h)) hd ->
  frame (hd ++ c) (xor_all (hd ++ c)) data ->
  (forall d, opened (rk_n (keys priv)) (rk_d (keys priv)) k c d ->
    msg_decode env' (Some priv) data = Ok (Message (hdr_arrives h id (zlen c)) (match decode env' id d with Ok (e, _) => BEnt e | _ => BNil end))) /\
  ((forall d, ~ opened (rk_n (keys priv)) (rk_d (keys priv)) k c d) -> msg_decode env' (Some priv) data = Err ErrDecryptMessageFailed) /\
  msg_decode env' None data = Err ErrDecryptMessageFailed.
Proof. exact (sealed_read env keys seeds priv k h id hd c data). Qed.
Print Assumptions C200_read.
(** Pieces open in one way only. *)
Theorem C200_once (key : rsakey) k c d d' :
  takes_bytes k (rk_n key) -> 2 <= rk_e key <= 2 ^ 31 - 1 -> 0 < rk_d key -> 42 <= k < 2 ^ 32 -> bytes_ok c ->
  opened (rk_n key) (rk_d key) k c d -> opened (rk_n key) (rk_d key) k c d' -> d = d'.
Proof. exact (opened_once key k c d d'). Qed.
Print Assumptions C200_once.
(** A search for media under the key of 1024 bits; what OpenSSL encrypted opens; 100 bytes take two pieces. *)
Example C200_case : let q := E8802 (T8802 2 1 0 (GoTime 1704038400 0 28800) (GoTime 1709222399 0 28800)) in
  let h := Header 0 1024 13800138000 126 None in let d := [2; 1; 0; 36; 1; 1; 0; 0; 0; 36; 2; 41; 35; 89; 89] in
  takes_bytes 128 (rk_n demo_key) /\ wf rsa_demo q /\ boundary q = false /\ hdr_fits h /\ Z.testbit (h_prop h) 10 = true /\ on_wire (layout rsa_demo q) d /\
  (zlen d + 128 - 43) / (128 - 42) * 128 = 128 /\ bytes_ok demo_cipher /\ zlen demo_cipher = 128 /\
  opened (rk_n demo_key) (rk_d demo_key) 128 demo_cipher demo_text /\ pieces (128 - 42) (repeat 7 100) [repeat 7 86; repeat 7 14].
Proof.
  cbv zeta. assert (B : bytes_ok demo_cipher) by (unfold demo_cipher; repeat constructor; lia). assert (L : zlen demo_cipher = 128) by reflexivity.
  split; [exact demo_takes|]. split; [exact demo_search_wf|]. split; [reflexivity|]. split; [cbv; intuition congruence|]. split; [reflexivity|]. split.
  { destruct (ProofWire2.layout_ok rsa_demo (E8802 demo_search) demo_search_wf) as (d & E & O). pose proof demo_search_bytes as E'.
    unfold demo_search in E. rewrite E' in E. injection E as <-. exact O. }
  split; [reflexivity|]. split; [exact B|]. split; [exact L|]. split.
  - exists [demo_cipher], [demo_text]. split; [|split; [reflexivity|]].
    + pose proof (pieces_more 128 demo_cipher [] [] L (pieces_none 128)) as P. rewrite app_nil_r in P. exact P.
    + apply Forall2_cons; [|constructor].
      destruct (proj1 (decrypts demo_key 128 demo_cipher demo_text demo_takes ltac:(cbn [demo_key rk_e]; lia) ltac:(cbn [demo_key rk_d]; lia) ltac:(lia) B) demo_back) as (_ & _ & N & Q).
      split; [exact N|exact Q].
  - apply (pieces_more 86 (repeat 7 86) (repeat 7 14)); [reflexivity|]. apply pieces_last. cbn. lia.
Qed.
