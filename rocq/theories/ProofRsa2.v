(** Encrypted messages with 1024-bit keys; trial division. *)
From Coq Require Import Znumtheory.
From Verif Require Import Base LibBase Bits Env EntTerm EntPlat Registry Message Sha1 Rsa SpecFrame SpecGeo SpecEntity SpecMsg SpecWire SpecRsa ProofRound2 ProofSafe ProofWire3 ProofMsg ProofMsg2 ProofWire5 ProofFermat ProofRsa.

Lemma no_factor p r : 1 < p -> p < (r + 1) * (r + 1) -> 0 <= r -> (forall i, 2 <= i <= r -> ~ (i | p)) -> prime p.
Proof.
  intros P R R0 H. destruct (prime_dec p) as [D|D]; [exact D|exfalso]. destruct (not_prime_divide p P D) as (n & N & [q Q]).
  assert (1 < q) by nia. destruct (Z_le_gt_dec n r).
  - apply (H n); [lia|]. exists q. exact Q.
  - apply (H q); [nia|]. exists n. lia.
Qed.
Definition trial (r : nat) (p : Z) : bool := forallb (fun i => negb (p mod Z.of_nat i =? 0)) (seq 2 (r - 1)).
Lemma trial_prime r p : (1 <= r)%nat -> 1 < p -> p < (Z.of_nat r + 1) * (Z.of_nat r + 1) -> trial r p = true -> prime p.
Proof.
  intros R P B T. apply no_factor with (Z.of_nat r); auto; [lia|]. intros i I D. unfold trial in T. rewrite forallb_forall in T.
  specialize (T (Z.to_nat i)). rewrite Z2Nat.id in T by lia. apply Z.mod_divide in D; [|lia]. rewrite D in T. discriminate T. apply in_seq. lia.
Qed.

Lemma cipher_128 env keys seeds pub n : n_size (rk_n (keys pub)) = 128 -> cipher_len (rsa_env env keys seeds) pub n = (n + 85) / 86 * 128.
Proof. intros H. unfold cipher_len. cbn [rsa_env key_size]. rewrite H. cbv zeta. replace (n + (128 - 42) - 1) with (n + 85) by lia. reflexivity. Qed.
Lemma rsa_message env keys seeds pub priv ps rnd m e raw :
  rk_n (keys pub) = rk_n (keys priv) -> rk_e (keys pub) = rk_e (keys priv) ->
  rsa_numbers (rk_n (keys priv)) (rk_e (keys priv)) (rk_d (keys priv)) ps -> takes_bytes 128 (rk_n (keys priv)) ->
  (forall r, bytes_ok (seeds r) /\ zlen (seeds r) = 20) ->
  let env' := rsa_env env keys seeds in
  m_body m = BEnt e -> encode env' e = Ok raw -> wf env' e -> boundary e = false -> hdr_fits (m_hdr m) -> zlen raw <= 602 ->
  exists data m', msg_encode env' (Some pub) rnd m = Ok (data, m') /\ bytes_ok data /\
    msg_decode env' (Some priv) data = Ok (Message (hdr_arrives (encrypted (m_hdr m)) (type_number e) ((zlen raw + 85) / 86 * 128)) (BEnt (sent env' e))) /\
    msg_decode env' None data = Err ErrDecryptMessageFailed.
Proof.
  intros En Ee R T S env' Hb Er W B F L. pose proof (rsa_contract env keys seeds pub priv ps 128 En Ee R T ltac:(lia) S) as P. fold env' in P.
  assert (C : cipher_len env' pub (zlen raw) = (zlen raw + 85) / 86 * 128) by (apply cipher_128; rewrite En; apply size_takes, T).
  destruct (secret_round_trip env' pub priv rnd m e raw P Hb Er W B F) as (data & m' & D1 & D2 & D3).
  - rewrite C. pose proof (zlen_nonneg raw). lia.
  - rewrite C, type_number_id in D2. exists data, m'. split; [exact D1|]. split; [|split; [exact D2|exact D3]].
    eapply frame_bytes; [exact Hb|exact W|destruct F as (_ & F & _); lia| |exact D1]. intros p' E. injection E as <-. eauto.
Qed.
Lemma rsa_limit env keys seeds pub priv ps rnd m e raw :
  rk_n (keys pub) = rk_n (keys priv) -> rk_e (keys pub) = rk_e (keys priv) ->
  rsa_numbers (rk_n (keys priv)) (rk_e (keys priv)) (rk_d (keys priv)) ps -> takes_bytes 128 (rk_n (keys priv)) ->
  (forall r, bytes_ok (seeds r) /\ zlen (seeds r) = 20) ->
  let env' := rsa_env env keys seeds in
  m_body m = BEnt e -> encode env' e = Ok raw -> bytes_ok raw -> 602 < zlen raw <= 43946 ->
  msg_encode env' (Some pub) rnd m = Err ErrBodyTooLong.
Proof.
  intros En Ee R T S env' Hb Er Br L. pose proof (rsa_contract env keys seeds pub priv ps 128 En Ee R T ltac:(lia) S) as P. fold env' in P.
  assert (C : cipher_len env' pub (zlen raw) = (zlen raw + 85) / 86 * 128) by (apply cipher_128; rewrite En; apply size_takes, T).
  apply (secret_too_long env' pub priv rnd m e raw P Hb Er Br). rewrite C. rewrite Z.mod_small; lia.
Qed.
(** the platform's and the terminal's key message *)
Lemma key_exchange env keys seeds pub priv ps (mk : t0a00 -> entity) num : mk = E8A00 /\ num = 0x8A00 \/ mk = E0A00 /\ num = 0x0A00 ->
  rsa_numbers (rk_n (keys priv)) (rk_e (keys priv)) (rk_d (keys priv)) ps -> takes_bytes 128 (rk_n (keys priv)) ->
  (forall r, bytes_ok (seeds r) /\ zlen (seeds r) = 20) ->
  let env' := rsa_env env keys seeds in
  exists body n e, encode env' (mk (T0A00 (Some (rk_e (keys priv), Some (rk_n (keys priv)))))) = Ok body /\
    decode env' num body = Ok (mk (T0A00 (Some (e, Some n))), zlen body) /\
    (rk_n (keys pub) = n -> rk_e (keys pub) = e -> rsa_pair env' pub priv).
Proof.
  intros Mk R T S env'. assert (W : wf_key (T0A00 (Some (rk_e (keys priv), Some (rk_n (keys priv)))))).
  { cbn [wf_key a0a00_key]. pose proof (rn_public _ _ _ _ R). destruct T as (_ & T). change 256 with (2 ^ 8) in T. rewrite <- !Z.pow_mul_r in T by lia.
    change (8 * (128 - 1)) with 1016 in T. change (8 * 128) with 1024 in T. split; [unfold is_u32; lia|exact T]. }
  destruct (rt_0a00 _ W) as (d & D1 & D2). exists d, (rk_n (keys priv)), (rk_e (keys priv)).
  split; [|split].
  - destruct Mk as [[-> ->]|[-> ->]]; cbn [encode]; exact D1.
  - destruct Mk as [[-> ->]|[-> ->]]; unfold decode; cbn; rewrite D2; reflexivity.
  - intros A B. apply (rsa_contract env keys seeds pub priv ps 128); auto. lia.
Qed.
