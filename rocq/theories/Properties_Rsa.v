(** RSA-OAEP: C181. *)
From Coq Require Import Znumtheory.
From Verif Require Import Base LibBase Bits GoTime Env EntTerm EntPlat Registry Message Sha1 Rsa.
From Verif Require Import SpecFrame SpecGeo SpecEntity SpecMsg SpecWire SpecRsa ProofRsa ProofRsa2 Demo ProofWire3 DemoRsa.

(** C181. RSA with OAEP padding and SHA-1 keeps the contract of the encryption theorems (C24, C94, C109), for
    every key whose exponents undo each other modulo every prime less one. *)
Theorem C181_contract env keys seeds pub priv ps k :
  rk_n (keys pub) = rk_n (keys priv) -> rk_e (keys pub) = rk_e (keys priv) ->
  rsa_numbers (rk_n (keys priv)) (rk_e (keys priv)) (rk_d (keys priv)) ps -> takes_bytes k (rk_n (keys priv)) -> 42 < k ->
  (forall r, bytes_ok (seeds r) /\ zlen (seeds r) = 20) -> rsa_pair (rsa_env env keys seeds) pub priv.
Proof. exact (rsa_contract env keys seeds pub priv ps k). Qed.
Print Assumptions C181_contract.
(** Whatever is decrypted consists of bytes. *)
Theorem C181_plain env keys seeds p : 0 < rk_n (keys p) -> key_ok (rsa_env env keys seeds) (Some p).
Proof. exact (rsa_key_ok env keys seeds p). Qed.
Print Assumptions C181_plain.
(** With the keys of 1024 bits the server takes, a body of up to 602 bytes arrives, and only with the private key ... *)
Theorem C181_message env keys seeds pub priv ps rnd m e raw :
  rk_n (keys pub) = rk_n (keys priv) -> rk_e (keys pub) = rk_e (keys priv) ->
  rsa_numbers (rk_n (keys priv)) (rk_e (keys priv)) (rk_d (keys priv)) ps -> takes_bytes 128 (rk_n (keys priv)) ->
  (forall r, bytes_ok (seeds r) /\ zlen (seeds r) = 20) ->
  let env' := rsa_env env keys seeds in
  m_body m = BEnt e -> encode env' e = Ok raw -> wf env' e -> boundary e = false -> hdr_fits (m_hdr m) -> zlen raw <= 602 ->
  exists data m', msg_encode env' (Some pub) rnd m = Ok (data, m') /\ bytes_ok data /\
    msg_decode env' (Some priv) data = Ok (Message (hdr_arrives (encrypted (m_hdr m)) (type_number e) ((zlen raw + 85) / 86 * 128)) (BEnt (sent env' e))) /\
    msg_decode env' None data = Err ErrDecryptMessageFailed.
Proof. exact (rsa_message env keys seeds pub priv ps rnd m e raw). Qed.
Print Assumptions C181_message.
(** ... and a longer one is refused. *)
Theorem C181_limit env keys seeds pub priv ps rnd m e raw :
  rk_n (keys pub) = rk_n (keys priv) -> rk_e (keys pub) = rk_e (keys priv) ->
  rsa_numbers (rk_n (keys priv)) (rk_e (keys priv)) (rk_d (keys priv)) ps -> takes_bytes 128 (rk_n (keys priv)) ->
  (forall r, bytes_ok (seeds r) /\ zlen (seeds r) = 20) ->
  let env' := rsa_env env keys seeds in
  m_body m = BEnt e -> encode env' e = Ok raw -> bytes_ok raw -> 602 < zlen raw <= 43946 ->
  msg_encode env' (Some pub) rnd m = Err ErrBodyTooLong.
Proof. exact (rsa_limit env keys seeds pub priv ps rnd m e raw). Qed.
Print Assumptions C181_limit.
(** A public key sent in a message 0x8A00 or 0x0A00 is read by the other side as a key it can encrypt with. *)
Theorem C181_exchange env keys seeds pub priv ps (mk : t0a00 -> entity) num :
  mk = E8A00 /\ num = 0x8A00 \/ mk = E0A00 /\ num = 0x0A00 ->
  rsa_numbers (rk_n (keys priv)) (rk_e (keys priv)) (rk_d (keys priv)) ps -> takes_bytes 128 (rk_n (keys priv)) ->
  (forall r, bytes_ok (seeds r) /\ zlen (seeds r) = 20) ->
  let env' := rsa_env env keys seeds in
  exists body n e, encode env' (mk (T0A00 (Some (rk_e (keys priv), Some (rk_n (keys priv)))))) = Ok body /\
    decode env' num body = Ok (mk (T0A00 (Some (e, Some n))), zlen body) /\
    (rk_n (keys pub) = n -> rk_e (keys pub) = e -> rsa_pair env' pub priv).
Proof. exact (key_exchange env keys seeds pub priv ps mk num). Qed.
Print Assumptions C181_exchange.
(** A key of 1024 bits; what OpenSSL made of a text with it; a search for media, which takes 15 bytes. *)
Example C181_case : let q := E8802 (T8802 2 1 0 (GoTime 1704038400 0 28800) (GoTime 1709222399 0 28800)) in
  rsa_numbers (rk_n demo_key) (rk_e demo_key) (rk_d demo_key) demo_primes /\ takes_bytes 128 (rk_n demo_key) /\ bytes_ok demo_seed /\ zlen demo_seed = 20 /\
  rsa_enc demo_key demo_seed demo_text = Some demo_cipher /\ rsa_dec demo_key demo_cipher = Some demo_text /\
  wf rsa_demo q /\ boundary q = false /\ encode rsa_demo q = Ok [2; 1; 0; 36; 1; 1; 0; 0; 0; 36; 2; 41; 35; 89; 89].
Proof.
  exact (conj demo_numbers (conj demo_takes (conj (proj1 demo_seed_ok) (conj (proj2 demo_seed_ok) (conj demo_openssl (conj demo_back
    (conj demo_search_wf (conj eq_refl demo_search_bytes)))))))).
Qed.
