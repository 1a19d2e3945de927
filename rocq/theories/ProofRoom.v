(** Proofs for C207 and C208: room under a key. *)
From Verif Require Import Base LibBase Bits LibBits Env EntTerm EntPlat Registry Message Demo.
From Verif Require Import SpecFrame SpecMsg SpecRoom ProofFrame ProofHeader ProofMsg.

Lemma room_exact env pub n : 42 < key_size env pub -> 0 <= n -> (cipher_len env pub n <= 1023 <-> n <= room (key_size env pub)).
Proof.
  intros K N. unfold cipher_len, room. cbv zeta. set (k := key_size env pub) in *. set (c := k - 42). assert (C : 0 < c) by (unfold c; lia).
  set (b := (n + c - 1) / c). set (q := 1023 / k).
  assert (B : c * b <= n + c - 1 < c * b + c) by (unfold b; pose proof (Z.div_mod (n + c - 1) c ltac:(lia)); pose proof (Z.mod_pos_bound (n + c - 1) c C); lia).
  assert (Q : k * q <= 1023 < k * q + k) by (unfold q; pose proof (Z.div_mod 1023 k ltac:(lia)); pose proof (Z.mod_pos_bound 1023 k ltac:(lia)); lia).
  clearbody b q. assert (X : b <= q <-> n <= q * c) by nia. rewrite <- X. split; nia.
Qed.
Lemma room_small env pub n : 42 < key_size env pub <= 65535 -> 0 <= n <= 1023 -> 0 <= cipher_len env pub n < 65536.
Proof.
  intros K N. unfold cipher_len. cbv zeta. set (k := key_size env pub) in *. set (c := k - 42). assert (C : 0 < c) by (unfold c; lia). set (b := (n + c - 1) / c).
  assert (B : c * b <= n + c - 1 < c * b + c) by (unfold b; pose proof (Z.div_mod (n + c - 1) c ltac:(lia)); pose proof (Z.mod_pos_bound (n + c - 1) c C); lia). clearbody b.
  assert (0 <= b) by nia. destruct (Z.leb_spec n c); [assert (b <= 1) by nia; nia|]. assert (b <= 1023) by nia. unfold c in *. nia.
Qed.
Lemma under_key env pub priv rnd m e raw : rsa_pair env pub priv -> key_size env pub <= 65535 -> m_body m = BEnt e -> encode env e = Ok raw -> bytes_ok raw -> hdr_fits (m_hdr m) -> zlen raw <= 1023 ->
  if zlen raw <=? room (key_size env pub) then exists data m', msg_encode env (Some pub) rnd m = Ok (data, m')
  else msg_encode env (Some pub) rnd m = Err ErrBodyTooLong.
Proof.
  intros P S B E R F N. pose proof P as (K1 & _). pose proof (zlen_nonneg raw) as N0. pose proof (room_exact env pub (zlen raw) K1 N0) as X. pose proof (room_small env pub (zlen raw) ltac:(lia) ltac:(lia)) as Y.
  destruct (Z.leb_spec (zlen raw) (room (key_size env pub))) as [L|L].
  - destruct (encryption env pub priv rnd raw P R) as (ct & C1 & _ & C2 & _).
    assert (Eb : enc_body env (Some pub) rnd m = Ok (ct, encrypted (m_hdr m), BEnt (encoded e))) by (unfold enc_body; rewrite B, E; cbn [bind]; rewrite C1; reflexivity).
    destruct (carried env (Some pub) rnd m e (encrypted (m_hdr m)) ct B Eb (encrypted_fits _ F)) as (data & ME & _); [rewrite C2, Z.mod_small; lia|]. eauto.
  - apply (secret_too_long env pub priv rnd m e raw P B E R). rewrite Z.mod_small by lia. lia.
Qed.
Lemma room_most k : 42 < k -> 0 <= room k <= 981.
Proof.
  intros K. unfold room. set (q := 1023 / k). assert (Q : k * q <= 1023 < k * q + k) by (unfold q; pose proof (Z.div_mod 1023 k ltac:(lia)); pose proof (Z.mod_pos_bound 1023 k ltac:(lia)); lia). clearbody q.
  assert (0 <= q) by nia. destruct (Z.eq_dec q 0) as [->|]; [lia|]. nia.
Qed.
(** A body of 982 bytes *)
Lemma clear_only env pub priv rnd : rsa_pair env pub priv -> key_size env pub <= 65535 -> exists m e raw,
  m_body m = BEnt e /\ encode env e = Ok raw /\ zlen raw = 982 /\ hdr_fits (m_hdr m) /\
  (exists data m', msg_encode env None rnd m = Ok (data, m')) /\ msg_encode env (Some pub) rnd m = Err ErrBodyTooLong.
Proof.
  intros P S. set (e := E8900 (TData 1 (repeat 0 981))). assert (E : encode env e = Ok (1 :: repeat 0 981)) by reflexivity. set (m := Message (Header 0 0 1 1 None) (BEnt e)).
  assert (F : hdr_fits (m_hdr m)). { unfold hdr_fits, is_u16. cbn [m m_hdr h_prop h_icc h_serial h_packet]. split; [lia|]. split; [lia|]. split; [lia|]. reflexivity. }
  assert (L : zlen (1 :: repeat 0 981) = 982) by (rewrite zlen_cons; unfold zlen; rewrite repeat_length; lia).
  assert (R : bytes_ok (1 :: repeat 0 981)). { constructor; [unfold is_byte; lia|]. apply Forall_forall. intros x X. apply repeat_spec in X. subst. unfold is_byte. lia. }
  exists m, e, (1 :: repeat 0 981). split; [reflexivity|]. split; [exact E|]. split; [exact L|]. split; [exact F|]. split.
  - destruct (size_exact env rnd m e _ eq_refl E F) as (_ & H). destruct H as (d & m' & H & _); [rewrite L; cbv; congruence|]. eauto.
  - pose proof (under_key env pub priv rnd m e _ P S eq_refl E R F ltac:(lia)) as U. rewrite L in U. pose proof (room_most (key_size env pub) (proj1 P)). destruct (Z.leb_spec 982 (room (key_size env pub))); [lia|exact U].
Qed.
