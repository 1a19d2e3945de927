(** What a whole message is made of when it is read, independently of the code. *)
From Verif Require Import Base Env Registry Message SpecEntity SpecMsg SpecWire SpecRead.

(** The bytes [hb] are the header [h]: its fields in the order and widths of the standard,
    packet fields exactly if bit 13 of the property word is set, a terminal number that is not zero. *)
Definition header_is (h : header) (hb : bytes) : Prop :=
  1 <= h_icc h < 10 ^ 12 /\ has (h_packet h) = Z.testbit (h_prop h) 13 /\
  on_wire (header_layout (h_id h) (h_prop h) (h_icc h) (h_serial h) (h_packet h)) hb.
(** The bytes [d] are blocks of the size of the key, the last one perhaps shorter, which decrypt to [plain]. *)
Inductive deciphered (env : Env) (priv : Z) : bytes -> bytes -> Prop :=
| DcEnd : deciphered env priv [] []
| DcLast b m : b <> [] -> zlen b < key_size env priv -> oaep_dec env priv b = Some m -> deciphered env priv b m
| DcMore b m d r : zlen b = key_size env priv -> oaep_dec env priv b = Some m -> deciphered env priv d r ->
    deciphered env priv (b ++ d) (m ++ r).
(** Bit 10 of the property word says that the body is encrypted. *)
Definition opened (env : Env) (key : option Z) (h : header) (d plain : bytes) : Prop :=
  if Z.testbit (h_prop h) 10 then exists priv, key = Some priv /\ deciphered env priv d plain else plain = d.
(** The bytes [d] begin with the fields of [e]. *)
Definition begins_with (env : Env) (typ : Z) (e : entity) (d : bytes) : Prop :=
  typ = type_number e /\ least e <= zlen d /\ exists rest, takes env (reading e) d rest.
(** Whatever begins with the fields of a body of the type is that body; nothing else is a body. *)
Definition body_is (env : Env) (typ : Z) (d : bytes) (b : body) : Prop :=
  match b with
  | BEnt e => begins_with env typ e d
  | BNil => forall e, ~ begins_with env typ e d
  | BNilPtr _ => False
  end.
(** The payload [hb ++ d] of a frame is the message [m].  The ten low bits of the property word are the length
    of the body; a body of any other length is ignored. *)
Definition is_message (env : Env) (key : option Z) (hb d : bytes) (m : message) : Prop :=
  header_is (m_hdr m) hb /\
  (zlen d mod 65536 <> h_prop (m_hdr m) mod 1024 /\ m_body m = BNil \/
   zlen d mod 65536 = h_prop (m_hdr m) mod 1024 /\
   exists plain, opened env key (m_hdr m) d plain /\ body_is env (h_id (m_hdr m)) plain (m_body m)).
