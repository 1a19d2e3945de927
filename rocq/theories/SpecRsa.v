(** RSA keys, in the words of RFC 8017 section 3. *)
From Coq Require Import Znumtheory.
From Verif Require Import Base.

(** the product of the prime factors *)
Definition product (ps : list Z) : Z := fold_right Z.mul 1 ps.
(** [d] undoes [e]: the modulus is a product of distinct primes, [e * d = 1] modulo each prime less one. *)
Record rsa_numbers (n e d : Z) (ps : list Z) : Prop := {
  rn_primes : Forall prime ps;
  rn_distinct : NoDup ps;
  rn_modulus : n = product ps;
  rn_inverse : forall p, In p ps -> (p - 1 | e * d - 1);
  rn_public : 2 <= e <= 2 ^ 31 - 1;
  rn_private : 0 < d;
}.
(** the modulus takes [k] bytes *)
Definition takes_bytes (k n : Z) : Prop := 0 < k /\ 256 ^ (k - 1) <= n < 256 ^ k.
