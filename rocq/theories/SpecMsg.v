(** What a message is on the wire and how it arrives, independently of the code. *)
From Verif Require Import Base Env Registry Message SpecGeo SpecEntity.

Definition has {A} (o : option A) : bool := match o with Some _ => true | None => false end.
(** Header fields that fit their wire fields; a packet flag needs a packet. *)
Definition hdr_fits (h : header) : Prop :=
  is_u16 (h_prop h) /\ 1 <= h_icc h < 10 ^ 12 /\ is_u16 (h_serial h) /\
  match h_packet h with
  | Some (sum, seq) => is_u16 sum /\ is_u16 seq
  | None => Z.testbit (h_prop h) 13 = false
  end.
(** The property word: ten bits of length, flags as given, bit 13 for a packet. *)
Definition wire_prop (p n : Z) (pk : bool) : Z := mark (p / 1024 * 1024 + n) 13 pk.
(** The header that arrives with a body of type [id] and [n] bytes. *)
Definition hdr_arrives (h : header) (id n : Z) : header :=
  Header id (wire_prop (h_prop h) (n mod 65536) (has (h_packet h))) (h_icc h) (h_serial h) (h_packet h).
(** With the encryption flag. *)
Definition encrypted (h : header) : header :=
  Header (h_id h) (Z.setbit (h_prop h) 10) (h_icc h) (h_serial h) (h_packet h).

(** Matching RSA keys: OAEP with SHA-1 takes up to [size - 42] bytes, yields
    [size] bytes and is undone by the private key (C181: so does RSAES-OAEP). *)
Definition rsa_pair (env : Env) (pub priv : Z) : Prop :=
  42 < key_size env pub /\ key_size env priv = key_size env pub /\
  forall r m, bytes_ok m -> zlen m <= key_size env pub - 42 ->
    exists c, oaep_enc env pub r m = Some c /\ bytes_ok c /\ zlen c = key_size env pub /\ oaep_dec env priv c = Some m.
(** Bytes needed for [n] bytes of text in blocks of a key. *)
Definition cipher_len (env : Env) (pub n : Z) : Z :=
  let k := key_size env pub in (n + (k - 42) - 1) / (k - 42) * k.
(** A usable private key: decryption yields bytes. *)
Definition key_ok (env : Env) (key : option Z) : Prop :=
  match key with
  | Some p => 0 < key_size env p /\ forall c m, bytes_ok c -> oaep_dec env p c = Some m -> bytes_ok m
  | None => True
  end.
(** The header of a payload takes 12 bytes, 16 with packet fields. *)
Definition after_header (h : header) (p : bytes) : bytes :=
  skipn (if Z.testbit (h_prop h) 13 then 16 else 12) p.
