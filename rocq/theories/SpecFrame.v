(** What a frame on the wire is, independently of the code. *)
From Verif Require Import Base.

(** [escaped p w]: [w] is the transmitted form of the payload bytes [p]
    (JT/T 808: 0x7e is sent as 0x7d 0x02, 0x7d as 0x7d 0x01). *)
Inductive escaped : bytes -> bytes -> Prop :=
| esc_nil : escaped [] []
| esc_delim p w : escaped p w -> escaped (126 :: p) (125 :: 2 :: w)
| esc_esc p w : escaped p w -> escaped (125 :: p) (125 :: 1 :: w)
| esc_plain b p w : b <> 126 -> b <> 125 -> escaped p w -> escaped (b :: p) (b :: w).

(** Exclusive or of all bytes. *)
Definition xor_all (l : bytes) : Z := fold_right Z.lxor 0 l.

(** [frame p c data]: [data] is the frame that carries payload [p] and checksum byte [c]. *)
Definition frame (p : bytes) (c : Z) (data : bytes) : Prop :=
  exists w v, escaped p w /\ escaped [c] v /\ data = [126] ++ w ++ v ++ [126].

(** The bytes between the first and the last one. *)
Definition delimited (data mid : bytes) : Prop := data = [126] ++ mid ++ [126].

(** How a receiver reads transmitted bytes back: 0x7d must be followed by 0x01
    or 0x02; every other byte stands for itself. *)
Inductive reads : bytes -> bytes -> Prop :=
| rds_nil : reads [] []
| rds_esc w p : reads w p -> reads (125 :: 1 :: w) (125 :: p)
| rds_delim w p : reads w p -> reads (125 :: 2 :: w) (126 :: p)
| rds_plain b w p : b <> 125 -> reads w p -> reads (b :: w) (b :: p).

(** [checksum_sent c v]: [v] is the transmitted form of the checksum byte [c],
    sent as it is or escaped. *)
Definition checksum_sent (c : Z) (v : bytes) : Prop :=
  v = [c] \/ (c = 125 /\ v = [125; 1]) \/ (c = 126 /\ v = [125; 2]).

(** [carries data p]: [data] is delimited by 0x7e, its interior reads as the
    non-empty payload [p] followed by the correct checksum of [p]. *)
Definition carries (data p : bytes) : Prop :=
  p <> [] /\ exists w v, data = [126] ++ w ++ v ++ [126] /\ reads w p /\ checksum_sent (xor_all p) v.
