(** SHA-1 (FIPS 180-4), the hash given to RSA-OAEP (sha1.New(), protocol/message.go:34 and :159).
    The code of Go's crypto/sha1 is outside the repository: this is the standard's definition. *)
From Verif Require Import Base EntTerm.

(** rotation of a 32-bit word to the left; FIPS 180-4 section 3.2, for protocol/message.go:34 *)
Definition rotl (n x : Z) : Z := Z.lor (u32 (Z.shiftl x n)) (Z.shiftr x (32 - n)).
(** Padding, FIPS 180-4 section 5.1.1: a one bit, zeros, the length in bits as 64 bits (for protocol/message.go:34). *)
Definition sha1_pad (m : bytes) : bytes :=
  m ++ [128] ++ repeat 0 (Z.to_nat ((55 - zlen m) mod 64)) ++ be_bytes 8 (8 * zlen m).
(** the 32-bit words of a block (for protocol/message.go:34) *)
Fixpoint words (m : bytes) : list Z :=
  match m with a :: b :: c :: d :: t => be_value [a; b; c; d] :: words t | _ => [] end.
(** Message schedule, FIPS 180-4 section 6.1.2, the last word first: [k] more words (for protocol/message.go:34). *)
Fixpoint schedule (k : nat) (w : list Z) : list Z :=
  match k with
  | O => w
  | S k' => schedule k' (rotl 1 (Z.lxor (Z.lxor (nth 2 w 0) (nth 7 w 0)) (Z.lxor (nth 13 w 0) (nth 15 w 0))) :: w)
  end.
(** the five words of the state (for protocol/message.go:34) *)
Record sha1_state := H5 { s_a : Z; s_b : Z; s_c : Z; s_d : Z; s_e : Z }.
(** f_t and K_t, FIPS 180-4 sections 4.1.1 and 4.2.1 (for protocol/message.go:34) *)
Definition sha1_f (t b c d : Z) : Z :=
  if t <? 20 then Z.lxor (Z.land b c) (Z.land (4294967295 - b) d)
  else if t <? 40 then Z.lxor b (Z.lxor c d)
  else if t <? 60 then Z.lxor (Z.land b c) (Z.lxor (Z.land b d) (Z.land c d))
  else Z.lxor b (Z.lxor c d).
(** the constants of the four groups of rounds, FIPS 180-4 section 4.2.1 (for protocol/message.go:34) *)
Definition sha1_k (t : Z) : Z :=
  if t <? 20 then 0x5a827999 else if t <? 40 then 0x6ed9eba1 else if t <? 60 then 0x8f1bbcdc else 0xca62c1d6.
(** The 80 rounds, FIPS 180-4 section 6.1.2 step 3 (for protocol/message.go:34). *)
Fixpoint rounds (t : Z) (ws : list Z) (s : sha1_state) : sha1_state :=
  match ws with
  | [] => s
  | w :: ws' =>
      let x := u32 (rotl 5 (s_a s) + sha1_f t (s_b s) (s_c s) (s_d s) + s_e s + sha1_k t + w) in
      rounds (t + 1) ws' (H5 x (s_a s) (rotl 30 (s_b s)) (s_c s) (s_d s))
  end.
(** One block, FIPS 180-4 section 6.1.2 (for protocol/message.go:34). *)
Definition sha1_block (s : sha1_state) (b : bytes) : sha1_state :=
  let r := rounds 0 (rev (schedule 64 (rev (words b)))) s in
  H5 (u32 (s_a s + s_a r)) (u32 (s_b s + s_b r)) (u32 (s_c s + s_c r)) (u32 (s_d s + s_d r)) (u32 (s_e s + s_e r)).
(** The blocks of 64 bytes, [n] of them (for protocol/message.go:34). *)
Fixpoint sha1_blocks (n : nat) (s : sha1_state) (m : bytes) : sha1_state :=
  match n with O => s | S n' => sha1_blocks n' (sha1_block s (firstn 64 m)) (skipn 64 m) end.
(** The digest: 20 bytes (hash.Size(), protocol/helpers.go:16). *)
Definition sha1 (m : bytes) : bytes :=
  let p := sha1_pad m in
  let s := sha1_blocks (Z.to_nat (zlen p / 64)) (H5 0x67452301 0xefcdab89 0x98badcfe 0x10325476 0xc3d2e1f0) p in
  be_bytes 4 (s_a s) ++ be_bytes 4 (s_b s) ++ be_bytes 4 (s_c s) ++ be_bytes 4 (s_d s) ++ be_bytes 4 (s_e s).
