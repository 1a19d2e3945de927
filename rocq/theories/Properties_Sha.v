(** The cipher is that of the standards: C191. *)
From Verif Require Import Base LibBase EntTerm Sha1 Rsa SpecRsa SpecSha ProofSha ProofSha2 ProofSha3 DemoRsa.

(** C191. The hash is SHA-1: exactly one sequence of bytes is the digest of a message, and the model computes it. *)
Theorem C191_digest m d : bytes_ok m -> 8 * zlen m < 2 ^ 64 -> digest m d <-> d = sha1 m.
Proof. exact (sha1_exact m d). Qed.
Print Assumptions C191_digest.
(** A text is encrypted exactly when it is at most 42 bytes shorter than the modulus; the result has the size of the
    modulus and stands for the power of the padded text. *)
Theorem C191_encrypt key k seed m c : takes_bytes k (rk_n key) -> 2 <= rk_e key <= 2 ^ 31 - 1 -> k < 2 ^ 32 -> bytes_ok seed -> length seed = 20%nat -> bytes_ok m ->
  rsa_enc key seed m = Some c <-> zlen m <= k - 42 /\ bytes_ok c /\ zlen c = k /\ exists em, encoding k seed m em /\ number c = number em ^ rk_e key mod rk_n key.
Proof. exact (encrypts key k seed m c). Qed.
Print Assumptions C191_encrypt.
(** Bytes are decrypted to a text exactly when their power is that text padded with some seed. *)
Theorem C191_decrypt key k c m : takes_bytes k (rk_n key) -> 2 <= rk_e key <= 2 ^ 31 - 1 -> 0 < rk_d key -> k < 2 ^ 32 -> bytes_ok c ->
  rsa_dec key c = Some m <-> 42 <= k /\ zlen c <= k /\ number c <= rk_n key /\
    exists em seed, bytes_ok em /\ zlen em = k /\ number em = number c ^ rk_d key mod rk_n key /\ bytes_ok seed /\ length seed = 20%nat /\ encoding k seed m em.
Proof. exact (decrypts key k c m). Qed.
Print Assumptions C191_decrypt.
(** The digest of "abc" printed in FIPS 180; a text encrypted by OpenSSL. *)
Example C191_case :
  digest [97; 98; 99] [169; 153; 62; 54; 71; 6; 129; 106; 186; 62; 37; 113; 120; 80; 194; 108; 156; 208; 216; 157] /\
  takes_bytes 128 (rk_n demo_key) /\ bytes_ok demo_seed /\ length demo_seed = 20%nat /\ rsa_enc demo_key demo_seed demo_text = Some demo_cipher /\
  exists em, encoding 128 demo_seed demo_text em /\ number demo_cipher = number em ^ 17 mod rk_n demo_key.
Proof.
  assert (A : bytes_ok [97; 98; 99]) by (repeat constructor; lia). assert (T : bytes_ok demo_text) by (unfold demo_text; repeat constructor; lia).
  split; [apply C191_digest; [exact A|reflexivity|symmetry; exact (proj2 demo_digests)]|]. split; [exact demo_takes|]. split; [exact (proj1 demo_seed_ok)|]. split; [reflexivity|].
  split; [exact demo_openssl|]. apply (C191_encrypt demo_key 128 demo_seed demo_text demo_cipher demo_takes ltac:(cbn [demo_key rk_e]; lia) ltac:(lia) (proj1 demo_seed_ok) eq_refl T), demo_openssl.
Qed.
