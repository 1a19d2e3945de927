(** One byte of a frame changed on the way. *)
From Verif Require Import Base Env Registry Message SpecFrame.

(** [mangled data data']: a byte of [data] between its delimiters arrived as another one, which is no delimiter. *)
Definition mangled (data data' : bytes) : Prop :=
  exists u x y v, data = [126] ++ u ++ x :: v ++ [126] /\ data' = [126] ++ u ++ y :: v ++ [126] /\ x <> y /\ y <> 126.

(** [slip data data']: the changed byte was 0x7c and arrived as 0x7d, or the other way round, and a byte 0x01 or 0x02
    follows it. *)
Definition slip (data data' : bytes) : Prop :=
  exists u x y z v, data = [126] ++ u ++ x :: z :: v ++ [126] /\ data' = [126] ++ u ++ y :: z :: v ++ [126] /\
    (x = 124 /\ y = 125 \/ x = 125 /\ y = 124) /\ (z = 1 \/ z = 2).

(** [shorter p q]: [q] has one byte where [p] has two: 0x7d for 0x7c 0x01, or 0x7e for 0x7c 0x02. *)
Definition shorter (p q : bytes) : Prop :=
  exists a b, p = a ++ 124 :: 1 :: b /\ q = a ++ 125 :: b \/ p = a ++ 124 :: 2 :: b /\ q = a ++ 126 :: b.

(** [one_changed s s']: one byte of a stream arrived as another one. *)
Definition one_changed (s s' : bytes) : Prop := exists a x y b, s = a ++ x :: b /\ s' = a ++ y :: b /\ x <> y.
(** [shipped env key env' key' data r]: [data] is what encoding a message with a body made, the reserved bits of its
    property being clear; unharmed it is decoded to [r]. *)
Definition shipped (env : Env) (key : option Z) (env' : Env) (key' : option Z) (data : bytes) (r : message) : Prop :=
  exists rnd m e m', m_body m = BEnt e /\ 0 <= h_prop (m_hdr m) < 16384 /\ zlen data <= 65000 /\
    msg_encode env key rnd m = Ok (data, m') /\ msg_decode env' key' data = Ok r.
