(** Memory, specification. *)
From Verif Require Import Base Bits Env Registry Message Codec Memory.

(** At most 128 bytes arrive at a time, the size of the array they are read into. *)
Definition reads_fit (ops : list mop) : Prop :=
  forall evs d g, In (MReceive evs) ops -> In (RData d, g) evs -> (length d <= 128)%nat.
(** The same calls of Receive with bytes as values; what holders of messages do is left out *)
Fixpoint vrun (env : Env) (key : option Z) (buf : bytes) (ops : list mop) : list received :=
  match ops with
  | [] => []
  | MReceive evs :: r => let '(x, b, _) := receive env key buf (map fst evs) in x :: vrun env key b r
  | MWrite _ _ _ :: r => vrun env key buf r
  end.
(** [d] with the byte at [i] replaced, if there is one *)
Definition replaced (i : nat) (b : Z) (d : bytes) : bytes :=
  match skipn i d with [] => d | _ :: t => firstn i d ++ b :: t end.
(** [d] after what the holder of message [j] stored *)
Fixpoint overwritten (j : nat) (ops : list mop) (d : bytes) : bytes :=
  match ops with
  | [] => d
  | MWrite k i b :: r => overwritten j r (if Nat.eqb k j then replaced i b d else d)
  | MReceive _ :: r => overwritten j r d
  end.
