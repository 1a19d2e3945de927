(** Negative offsets: C11. *)
From Verif Require Import Base LibBase Bits.

Lemma bit_negative w v off b : (w = 8 \/ w = 16 \/ w = 32) -> (get_bit w v off = Panic <-> off < 0) /\ (set_bit w v off b = Panic <-> off < 0).
Proof.
  intros W. unfold get_bit, set_bit. split.
  - destruct (Z.geb_spec off w); [split; [discriminate|lia]|]. destruct (Z.ltb_spec off 0); [split; auto|split; [discriminate|lia]].
  - destruct (Z.geb_spec off 32); [split; [discriminate|lia]|]. destruct (Z.ltb_spec off 0); [split; auto|split; [discriminate|lia]].
Qed.
