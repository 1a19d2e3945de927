(** SHA-1, the mask generation function and the padding of RSA, in the words of FIPS 180-4 and RFC 8017: bit by bit and word by word, as relations. *)
From Verif Require Import Base SpecRsa.

(** The number some bytes stand for, the first byte the most significant *)
Fixpoint number (l : bytes) : Z := match l with [] => 0 | b :: t => b * 256 ^ zlen t + number t end.
(** Words of 32 bits, and the k-th of them in some bytes *)
Definition word32 (x : Z) : Prop := 0 <= x < 2 ^ 32.
Definition word_at (p : bytes) (k : nat) : Z := number [nth (4 * k) p 0; nth (4 * k + 1) p 0; nth (4 * k + 2) p 0; nth (4 * k + 3) p 0].

(** A circular shift to the left by [n] places takes [x] to [y]. *)
Definition turned (n x y : Z) : Prop := word32 y /\ forall i, 0 <= i < 32 -> Z.testbit y ((i + n) mod 32) = Z.testbit x i.
(** [r] is made of three words bit by bit. *)
Definition bitwise (f : bool -> bool -> bool -> bool) (x y z r : Z) : Prop :=
  word32 r /\ forall i, 0 <= i < 32 -> Z.testbit r i = f (Z.testbit x i) (Z.testbit y i) (Z.testbit z i).
Definition choice (x y z : bool) : bool := if x then y else z.
Definition parity (x y z : bool) : bool := xorb x (xorb y z).
Definition majority (x y z : bool) : bool := (x && y) || (x && z) || (y && z).
(** The function and the constant of each round; the constants are 2^30 times the square roots of 2, 3, 5 and 10. *)
Definition logical (t : nat) : bool -> bool -> bool -> bool :=
  if (t <? 20)%nat then choice else if (t <? 40)%nat then parity else if (t <? 60)%nat then majority else parity.
Definition constant (t : nat) : Z :=
  Z.sqrt (2 ^ 60 * if (t <? 20)%nat then 2 else if (t <? 40)%nat then 3 else if (t <? 60)%nat then 5 else 10).

(** The message with a one bit, zeros, and its length in bits; a multiple of 64 bytes, as few as possible *)
Definition padded (m p : bytes) : Prop :=
  exists z len, p = m ++ [128] ++ repeat 0 z ++ len /\ (z < 64)%nat /\ bytes_ok len /\ length len = 8%nat /\ number len = 8 * zlen m /\ zlen p mod 64 = 0.
(** The 80 words made from block [i] *)
Definition scheduled (p : bytes) (i : nat) (w : nat -> Z) : Prop :=
  (forall t, (t < 16)%nat -> w t = word_at p (16 * i + t)) /\
  (forall t, (16 <= t < 80)%nat -> turned 1 (Z.lxor (w (t - 3)%nat) (Z.lxor (w (t - 8)%nat) (Z.lxor (w (t - 14)%nat) (w (t - 16)%nat)))) (w t)).
(** The five variables before and after each of the 80 rounds *)
Definition works (w a b c d e : nat -> Z) : Prop :=
  forall t, (t < 80)%nat -> exists r f, turned 5 (a t) r /\ bitwise (logical t) (b t) (c t) (d t) f /\
    a (S t) = (r + f + e t + constant t + w t) mod 2 ^ 32 /\ b (S t) = a t /\ turned 30 (b t) (c (S t)) /\ d (S t) = c t /\ e (S t) = d t.
(** Block [i] takes the five words of the hash from [h] to [h']. *)
Definition block_takes (p : bytes) (i : nat) (h h' : list Z) : Prop :=
  exists w a b c d e, scheduled p i w /\ works w a b c d e /\ h = [a O; b O; c O; d O; e O] /\
    h' = [(a O + a 80%nat) mod 2 ^ 32; (b O + b 80%nat) mod 2 ^ 32; (c O + c 80%nat) mod 2 ^ 32; (d O + d 80%nat) mod 2 ^ 32; (e O + e 80%nat) mod 2 ^ 32].
(** The hash after so many blocks *)
Inductive hashed (p : bytes) : nat -> list Z -> Prop :=
| hashed_none : hashed p 0 [0x67452301; 0xefcdab89; 0x98badcfe; 0x10325476; 0xc3d2e1f0]
| hashed_more i h h' : hashed p i h -> block_takes p i h h' -> hashed p (S i) h'.
(** [d] is the digest of [m]. *)
Definition digest (m d : bytes) : Prop :=
  exists p n h, padded m p /\ zlen p = 64 * Z.of_nat n /\ hashed p n h /\ bytes_ok d /\ length d = 20%nat /\ forall k, (k < 5)%nat -> word_at d k = nth k h 0.

(** The mask made from a seed: the digests of the seed with a counter behind it, one after another *)
Definition mask (seed : bytes) (len : nat) (m : bytes) : Prop :=
  length m = len /\ forall j, (j < len)%nat -> exists c d, bytes_ok c /\ length c = 4%nat /\ number c = Z.of_nat (j / 20) /\ digest (seed ++ c) d /\ nth j m 0 = nth (j mod 20) d 0.
(** Byte by byte, exclusive or *)
Definition xored (a b c : bytes) : Prop := length a = length b /\ length c = length b /\ forall j, nth j c 0 = Z.lxor (nth j a 0) (nth j b 0).
(** [em] is the message [m] padded to [k] bytes with a seed. *)
Definition encoding (k : Z) (seed m em : bytes) : Prop :=
  exists lh z m1 db1 m2 s1, digest [] lh /\ let db := lh ++ repeat 0 z ++ [1] ++ m in
    zlen db = k - 21 /\ mask seed (length db) m1 /\ xored db m1 db1 /\ mask db1 20 m2 /\ xored seed m2 s1 /\ em = [0] ++ s1 ++ db1.
