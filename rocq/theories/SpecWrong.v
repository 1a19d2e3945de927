(** What can be wrong with the bytes given to Message.Decode, in the order in which it is noticed, independently of the code. *)
From Verif Require Import Base Env Message SpecFrame SpecMsg SpecArrive.

(** [data] lies between two delimiters and consists of a payload [p], with its escapes in order, and a byte [c] for the checksum. *)
Definition readable (data p : bytes) (c : Z) : Prop :=
  exists w v, data = [126] ++ w ++ v ++ [126] /\ reads w p /\ checksum_sent c v.
(** The packed digits [t] are no terminal number: one of them is greater than nine, or all are zero. *)
Definition no_number (t : bytes) : Prop :=
  (exists b, In b t /\ (9 < b / 16 \/ 9 < b mod 16)) \/ (forall b, In b t -> b = 0).
(** The body [d] is encrypted and cannot be opened. *)
Definition sealed (env : Env) (key : option Z) (d : bytes) : Prop :=
  forall priv plain, key = Some priv -> ~ deciphered env priv d plain.

(** What is wrong with [data]. *)
Inductive wrong (env : Env) (key : option Z) (data : bytes) : goerr -> Prop :=
| WrFrame : (forall p c, ~ readable data p c) -> wrong env key data ErrInvalidMessage
| WrSum p c : readable data p c -> p = [] \/ c <> xor_all p -> (forall x, data <> [126; x; 126]) ->
    wrong env key data ErrInvalidCheckSum
| WrShort p : carries data p -> zlen p < 12 -> wrong env key data ErrInvalidHeader
| WrNumber a t b : carries data (a ++ t ++ b) -> zlen a = 4 -> zlen t = 6 -> 2 <= zlen b -> no_number t ->
    wrong env key data ErrParse
| WrPacket i1 i2 p1 p2 t b : carries data ([i1; i2; p1; p2] ++ t ++ b) -> zlen t = 6 -> 2 <= zlen b < 6 -> ~ no_number t ->
    Z.testbit p1 5 = true -> wrong env key data ErrUnexpectedEOF
| WrSealed hb d h : carries data (hb ++ d) -> header_is h hb -> zlen d mod 65536 = h_prop h mod 1024 ->
    Z.testbit (h_prop h) 10 = true -> sealed env key d -> wrong env key data ErrDecryptMessageFailed.

(** The frames [data] with a single byte between the delimiters. *)
Definition crashing (data : bytes) : Prop := exists x, data = [126; x; 126].
(** [data] is the frame of the message [m]. *)
Definition message_in (env : Env) (key : option Z) (data : bytes) (m : message) : Prop :=
  exists hb d, carries data (hb ++ d) /\ is_message env key hb d m.
