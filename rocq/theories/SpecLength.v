(** How long frames are. *)
From Verif Require Import Base.

(** Bytes that are sent as two *)
Fixpoint doubled (p : bytes) : Z :=
  match p with [] => 0 | b :: t => (if (b =? 125) || (b =? 126) then 1 else 0) + doubled t end.
(** Bytes of a header *)
Definition header_length (packet : option (Z * Z)) : Z := match packet with None => 12 | Some _ => 16 end.
