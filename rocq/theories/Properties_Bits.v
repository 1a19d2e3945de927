(** Property word and bit helpers: C10, C11. *)
From Verif Require Import Base Bits ProofBits ProofBits2.

(** C10. Body size (10 bits), encryption flag (bit 10) and packet flag (bit 13)
    of the header property are independent of each other and of the other bits. *)
Theorem C10_property_fields_independent p s : is_u16 p -> 0 <= s <= 1023 ->
  (exists p', set_body_size p s = Ok p' /\ is_u16 p' /\ get_body_size p' = s /\
     is_enable_packet p' = is_enable_packet p /\ is_enable_encrypt p' = is_enable_encrypt p /\
     forall i, 10 <= i -> Z.testbit p' i = Z.testbit p i) /\
  (is_u16 (enable_packet p) /\ is_enable_packet (enable_packet p) = true /\
   is_enable_encrypt (enable_packet p) = is_enable_encrypt p /\
   get_body_size (enable_packet p) = get_body_size p /\
   forall i, 0 <= i -> i <> 13 -> Z.testbit (enable_packet p) i = Z.testbit p i) /\
  (is_u16 (enable_encrypt p) /\ is_enable_encrypt (enable_encrypt p) = true /\
   is_enable_packet (enable_encrypt p) = is_enable_packet p /\
   get_body_size (enable_encrypt p) = get_body_size p /\
   forall i, 0 <= i -> i <> 10 -> Z.testbit (enable_encrypt p) i = Z.testbit p i).
Proof. exact (property_fields p s). Qed.
Print Assumptions C10_property_fields_independent.

Example C10_case : is_u16 54321 /\ 0 <= 777 <= 1023. Proof. unfold is_u16. lia. Qed.

(** C11. For widths 8, 16, 32 and every non-negative offset. *)
Theorem C11_set_bit w v off b : (w = 8 \/ w = 16 \/ w = 32) -> 0 <= v < 2 ^ w -> 0 <= off ->
  exists v', set_bit w v off b = Ok v' /\ 0 <= v' < 2 ^ w /\
    forall i, 0 <= i -> Z.testbit v' i = if (i =? off) && (off <? w) then b else Z.testbit v i.
Proof. exact (set_bit_spec w v off b). Qed.
Print Assumptions C11_set_bit.

Theorem C11_get_bit w v off : (w = 8 \/ w = 16 \/ w = 32) -> 0 <= v < 2 ^ w -> 0 <= off ->
  get_bit w v off = Ok (Z.testbit v off).
Proof. exact (get_bit_spec w v off). Qed.
Print Assumptions C11_get_bit.

Theorem C11_get_after_set w v off off' b v' : (w = 8 \/ w = 16 \/ w = 32) -> 0 <= v < 2 ^ w -> 0 <= off -> 0 <= off' ->
  set_bit w v off b = Ok v' ->
  get_bit w v' off' = if (off' =? off) && (off <? w) then Ok b else get_bit w v off'.
Proof. exact (set_bit_get_bit w v off off' b v'). Qed.
Print Assumptions C11_get_after_set.

(** A negative offset, and nothing else, is a crash. *)
Theorem C11_negative w v off b : (w = 8 \/ w = 16 \/ w = 32) -> (get_bit w v off = Panic <-> off < 0) /\ (set_bit w v off b = Panic <-> off < 0).
Proof. exact (bit_negative w v off b). Qed.
Print Assumptions C11_negative.

Example C11_case : set_bit 8 129 3 true = Ok 137 /\ get_bit 8 137 3 = Ok true /\ get_bit 8 137 9 = Ok false /\ set_bit 8 129 (-1) true = Panic.
Proof. vm_compute. auto. Qed.
