(** RSAES-OAEP with SHA-1 and the empty label, as EncryptOAEP and DecryptOAEP of protocol/helpers.go:14-39
    get it from Go's crypto/rsa (the hash sha1.New() and label nil of protocol/message.go:34 and :159).
    The library's code is outside the repository: this is RFC 8017 section 7.1, with the checks of the
    keys the library makes. *)
From Verif Require Import Base Env EntTerm Sha1.

(** crypto/rsa PublicKey (t808_0x8a00.go:48-51) and PrivateKey (server.go:21): modulus, public and private exponent *)
Record rsakey := RsaKey { rk_n : Z; rk_e : Z; rk_d : Z }.
(** [b^e mod n] by squaring (the modular powers behind protocol/helpers.go:18 and :32) *)
Fixpoint pow_mod (b : Z) (e : positive) (n : Z) : Z :=
  match e with
  | xH => b mod n
  | xO e' => let x := pow_mod b e' n in (x * x) mod n
  | xI e' => let x := pow_mod b e' n in ((x * x) mod n * b) mod n
  end.
(** the same with an exponent of type int; no power is taken of exponents below 1, see [rsa_usable] (protocol/helpers.go:18, :32) *)
Definition power (b e n : Z) : Z := match e with Zpos p => pow_mod b p n | _ => 1 mod n end.
(** MGF1 with SHA-1, RFC 8017 appendix B.2.1: [k] more blocks from counter [i] (under protocol/helpers.go:18) *)
Fixpoint mgf_blocks (k : nat) (i : Z) (seed : bytes) : bytes :=
  match k with O => [] | S k' => sha1 (seed ++ be_bytes 4 i) ++ mgf_blocks k' (i + 1) seed end.
(** the mask of [len] bytes (under protocol/helpers.go:18) *)
Definition mgf1 (seed : bytes) (len : nat) : bytes := firstn len (mgf_blocks (S (len / 20)) 0 seed).
(** bytewise exclusive or (under protocol/helpers.go:18) *)
Fixpoint xor_bytes (a b : bytes) : bytes :=
  match a, b with x :: a', y :: b' => Z.lxor x y :: xor_bytes a' b' | _, _ => [] end.
(** EME-OAEP encoding to [k] bytes, RFC 8017 section 7.1.1 step 2 (under protocol/helpers.go:18) *)
Definition oaep_pad (k : Z) (seed m : bytes) : bytes :=
  let db := sha1 [] ++ repeat 0 (Z.to_nat (k - zlen m - 42)) ++ [1] ++ m in
  let masked := xor_bytes db (mgf1 seed (length db)) in
  [0] ++ xor_bytes seed (mgf1 masked 20) ++ masked.
(** what follows the first one after zeros (under protocol/helpers.go:32) *)
Fixpoint after_one (d : bytes) : option bytes :=
  match d with [] => None | x :: t => if x =? 0 then after_one t else if x =? 1 then Some t else None end.
(** equality of byte strings (under protocol/helpers.go:32) *)
Fixpoint same_bytes (a b : bytes) : bool :=
  match a, b with [], [] => true | x :: a', y :: b' => (x =? y) && same_bytes a' b' | _, _ => false end.
(** EME-OAEP decoding, RFC 8017 section 7.1.2 step 3 (under protocol/helpers.go:32) *)
Definition oaep_unpad (em : bytes) : option bytes :=
  match em with
  | [] => None
  | y :: r =>
      let masked := skipn 20 r in
      let seed := xor_bytes (firstn 20 r) (mgf1 masked 20) in
      let db := xor_bytes masked (mgf1 seed (length masked)) in
      if (y =? 0) && same_bytes (firstn 20 db) (sha1 []) then after_one (skipn 20 db) else None
  end.
(** the library's check of a key: 2 <= E <= 2^31-1 (checkPub, under protocol/helpers.go:18 and :32) *)
Definition rsa_usable (k : rsakey) : bool := (2 <=? rk_e k) && (rk_e k <=? 2147483647) && (0 <? rk_n k).
(** rsa.EncryptOAEP (protocol/helpers.go:18): [seed] is what rand.Reader gives *)
Definition rsa_enc (k : rsakey) (seed m : bytes) : option bytes :=
  let size := n_size (rk_n k) in
  if negb (rsa_usable k) || (size - 42 <? zlen m) then None
  else Some (be_bytes (Z.to_nat size) (power (be_value (oaep_pad size seed m)) (rk_e k) (rk_n k))).
(** rsa.DecryptOAEP (protocol/helpers.go:32) *)
Definition rsa_dec (k : rsakey) (c : bytes) : option bytes :=
  let size := n_size (rk_n k) in
  if negb (rsa_usable k) || (size <? zlen c) || (size <? 42) || (rk_n k <? be_value c) then None
  else oaep_unpad (be_bytes (Z.to_nat size) (power (be_value c) (rk_d k) (rk_n k))).
(** The libraries with RSA-OAEP worked out: [keys] are the keys by number, [seeds] what rand.Reader gives the
    successive calls (protocol/helpers.go:14-39). *)
Definition rsa_env (env : Env) (keys : Z -> rsakey) (seeds : Z -> bytes) : Env :=
  {| gb_enc := gb_enc env; gb_dec := gb_dec env; tz_off := tz_off env; f2u32 := f2u32 env; gz_enc := gz_enc env; gz_dec := gz_dec env;
     key_size := fun k => n_size (rk_n (keys k)); oaep_enc := fun k r m => rsa_enc (keys k) (seeds r) m; oaep_dec := fun k c => rsa_dec (keys k) c |}.
