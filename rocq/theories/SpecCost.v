(** Bytes that arrive. *)
From Verif Require Import Base Codec.

(** the bytes of the reads, and the number of reads *)
Definition arrived (evs : list read_event) : bytes := concat (map (fun v => match v with RData d => d | RFail _ => [] end) evs).
Definition reads_of (evs : list read_event) : Z := zlen (filter (fun v => match v with RData _ => true | RFail _ => false end) evs).
(** Without a delimiter there are never [f] bytes in a row. *)
Definition delimited (f : Z) (l : bytes) : Prop := forall a g c, l = a ++ g ++ c -> ~ In 126 g -> zlen g < f.
