(** What keeps a body or a message from being encoded, independently of the code. *)
From Verif Require Import Base Env EntTerm EntPlat Registry Message SpecWire.

(** A text that is left out when it is empty. *)
Definition unless_empty (s : bytes) : list bytes := match s with [] => [] | _ => [s] end.
(** The texts of a body that are written in GB18030.  A telephone number to call back (0x8400) is not among them: if it
    cannot be written it is left out without an error. *)
Definition texts (e : entity) : list bytes :=
  match e with
  | E0100 x => unless_empty (a0100_license x)
  | E0102 x => unless_empty (a0102_key x)
  | E0702 x => [a0702_name x; a0702_number x; a0702_company x]
  | E8100 x => unless_empty (a8100_key x)
  | E8105 x | E8300 x => unless_empty (tt_text x)
  | E8108 x => [a8108_ver x]
  | E8301 x => map lb_text (a8301_events x)
  | E8302 x => a8302_q x :: map lb_text (a8302_answers x)
  | E8303 x => a8303_items x
  | E8304 x => [a8304_text x]
  | E8401 x => flat_map (fun c => [ct_number c; ct_name c]) (a8401_contacts x)
  | _ => []
  end.
(** The terminal parameters of a body. *)
Definition parameters (e : entity) : list (option param) :=
  match e with E0104 x => a0104_params x | E8103 x => a8103_params x | _ => [] end.
(** The modulus of a key to be sent has exactly 128 bytes. *)
Definition sendable_key (k : t0a00) : Prop := exists x n, a0a00_key k = Some (x, Some n) /\ 2 ^ 1016 <= Z.abs n < 2 ^ 1024.
(** What keeps a body from being encoded. *)
Inductive unsendable (env : Env) : entity -> goerr -> Prop :=
| UnText e s : In s (texts e) -> snd (gb_enc env s) = true -> unsendable env e ErrText
| UnKey k : ~ sendable_key k -> unsendable env (E0A00 k) ErrKey
| UnPlatformKey k : ~ sendable_key k -> unsendable env (E8A00 k) ErrKey
| UnReader x r : a0801_packet x = Some r -> rdr_fail r = true -> unsendable env (E0801 x) ErrOther.
(** A nil parameter. *)
Definition holed (e : entity) : Prop := In None (parameters e).

(** [ct] is [d] encrypted block by block, the last block perhaps shorter; each block takes new random bytes. *)
Inductive enciphered (env : Env) (pub : Z) : Z -> bytes -> bytes -> Prop :=
| EcEnd rnd : enciphered env pub rnd [] []
| EcLast rnd b c : b <> [] -> zlen b < key_size env pub - 42 -> oaep_enc env pub rnd b = Some c -> enciphered env pub rnd b c
| EcMore rnd b c d r : zlen b = key_size env pub - 42 -> oaep_enc env pub rnd b = Some c -> enciphered env pub (rnd + 1) d r ->
    enciphered env pub rnd (b ++ d) (c ++ r).
(** The bytes of the body of a message: none for a typed nil pointer. *)
Inductive body_bytes (env : Env) (key : option Z) (rnd : Z) (m : message) : bytes -> Prop :=
| BbNone i : m_body m = BNilPtr i -> body_bytes env key rnd m []
| BbPlain e d : m_body m = BEnt e -> key = None -> encode env e = Ok d -> body_bytes env key rnd m d
| BbSecret e d pub ct : m_body m = BEnt e -> key = Some pub -> 42 < key_size env pub -> encode env e = Ok d ->
    enciphered env pub rnd d ct -> body_bytes env key rnd m ct.
(** What keeps a message from being encoded. *)
Inductive refused (env : Env) (key : option Z) (rnd : Z) (m : message) : goerr -> Prop :=
| RfBody e x : m_body m = BEnt e -> unsendable env e x -> refused env key rnd m x
| RfCipher e d pub : m_body m = BEnt e -> encode env e = Ok d -> key = Some pub -> 42 < key_size env pub ->
    (forall ct, ~ enciphered env pub rnd d ct) -> refused env key rnd m ErrCrypt
| RfLong b : body_bytes env key rnd m b -> 1023 < zlen b mod 65536 -> refused env key rnd m ErrBodyTooLong.
(** What makes the encoding of a message panic: no body at all, a nil parameter, a key of 42 bytes or less, and the packet flag
    without packet fields. *)
Inductive panics (env : Env) (key : option Z) (rnd : Z) (m : message) : Prop :=
| PnNil : m_body m = BNil -> panics env key rnd m
| PnHole e : m_body m = BEnt e -> holed e -> panics env key rnd m
| PnKey e d pub : m_body m = BEnt e -> encode env e = Ok d -> key = Some pub -> key_size env pub <= 42 -> panics env key rnd m
| PnPacket b : body_bytes env key rnd m b -> zlen b mod 65536 <= 1023 -> h_packet (m_hdr m) = None ->
    Z.testbit (h_prop (m_hdr m)) 13 = true -> panics env key rnd m.
(** The number a message is sent under. *)
Definition numbered (m : message) (i : Z) : Prop := m_body m = BNilPtr i \/ exists e, m_body m = BEnt e /\ i = type_number e.
(** A body that is encrypted sets bit 10 of the property word. *)
Definition marked (key : option Z) (m : message) : Z :=
  match m_body m, key with BEnt _, Some _ => Z.setbit (h_prop (m_hdr m)) 10 | _, _ => h_prop (m_hdr m) end.
