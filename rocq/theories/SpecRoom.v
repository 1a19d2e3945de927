(** Room for the text of a message under a key. *)
From Verif Require Import Base.

(** A body has at most 1023 bytes; a block takes [k] of them and carries [k - 42] bytes of text. *)
Definition room (k : Z) : Z := 1023 / k * (k - 42).
