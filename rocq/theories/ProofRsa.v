(** RSAES-OAEP keeps the contract of the model. *)
From Coq Require Import Znumtheory Zpow_facts.
From Verif Require Import Base LibBase Env EntTerm Sha1 Rsa SpecMsg SpecRsa ProofRound2 ProofSafe ProofFermat.

Lemma size_takes k n : takes_bytes k n -> n_size n = k.
Proof.
  intros (K & L & H). assert (0 < n) by (pose proof (Z.pow_pos_nonneg 256 (k - 1)); lia). unfold n_size. destruct (Z.eqb_spec n 0); [lia|]. rewrite Z.abs_eq by lia.
  assert (8 * (k - 1) <= Z.log2 n < 8 * k); [|lia]. change 256 with (2 ^ 8) in L, H. rewrite <- Z.pow_mul_r in L, H by lia. split.
  - apply Z.log2_le_pow2; lia.
  - apply Z.log2_lt_pow2; lia.
Qed.
Lemma pow_mod_spec n b e : 0 < n -> pow_mod b e n = b ^ Zpos e mod n.
Proof.
  intros N. induction e as [e IH|e IH|]; cbn [pow_mod]; try rewrite IH.
  - rewrite Pos2Z.inj_xI, Z.pow_add_r, Z.pow_1_r, (Z.mul_comm 2), Z.pow_mul_r, Z.pow_2_r by lia.
    rewrite <- (Z.mul_mod (b ^ Z.pos e) (b ^ Z.pos e) n) by lia. rewrite (Z.mul_mod_idemp_l (b ^ Z.pos e * b ^ Z.pos e)) by lia. reflexivity.
  - rewrite Pos2Z.inj_xO, (Z.mul_comm 2), Z.pow_mul_r, Z.pow_2_r by lia. rewrite <- (Z.mul_mod (b ^ Z.pos e) (b ^ Z.pos e) n) by lia. reflexivity.
  - rewrite Z.pow_1_r. reflexivity.
Qed.
Lemma power_spec b e n : 0 < n -> 0 < e -> power b e n = b ^ e mod n.
Proof. intros N E. unfold power. destruct e as [|e|e]; [lia| |lia]. apply pow_mod_spec, N. Qed.
Lemma sha1_len m : length (sha1 m) = 20%nat.
Proof. unfold sha1. cbv zeta. rewrite !app_length, !be_bytes_len. reflexivity. Qed.
Lemma sha1_bytes m : bytes_ok (sha1 m).
Proof. unfold sha1. cbv zeta. rewrite !bytes_ok_app. repeat match goal with |- _ /\ _ => split end; apply be_bytes_ok. Qed.
Lemma mgf_blocks_len k : forall i seed, length (mgf_blocks k i seed) = (20 * k)%nat.
Proof. induction k; intros; cbn [mgf_blocks]; [reflexivity|]. rewrite app_length, sha1_len, IHk. lia. Qed.
Lemma mgf_blocks_bytes k : forall i seed, bytes_ok (mgf_blocks k i seed).
Proof. induction k; intros; cbn [mgf_blocks]; [constructor|]. apply bytes_ok_app. split; [apply sha1_bytes|apply IHk]. Qed.
Lemma mgf1_len seed n : length (mgf1 seed n) = n.
Proof. unfold mgf1. rewrite firstn_length, mgf_blocks_len. pose proof (Nat.div_mod n 20 ltac:(lia)). pose proof (Nat.mod_upper_bound n 20 ltac:(lia)). lia. Qed.
Lemma mgf1_bytes seed n : bytes_ok (mgf1 seed n).
Proof. apply bytes_ok_firstn, mgf_blocks_bytes. Qed.
Lemma lxor_byte a b : is_byte a -> is_byte b -> is_byte (Z.lxor a b).
Proof.
  unfold is_byte. intros A B. assert (0 <= Z.lxor a b) by (apply Z.lxor_nonneg; lia). split; [assumption|].
  destruct (Z.eq_dec (Z.lxor a b) 0) as [->|Nz]; [lia|]. change 256 with (2 ^ 8). apply Z.log2_lt_pow2; [lia|].
  eapply Z.le_lt_trans; [apply Z.log2_lxor; lia|]. assert (forall x, 0 <= x < 256 -> Z.log2 x < 8); [|apply Z.max_lub_lt; auto].
  intros x X. destruct (Z.eq_dec x 0) as [->|]; [reflexivity|]. apply Z.log2_lt_pow2; lia.
Qed.
Lemma xor_len a : forall b, length b = length a -> length (xor_bytes a b) = length a.
Proof. induction a; intros [|y b] H; cbn [xor_bytes length] in *; try lia. rewrite IHa; lia. Qed.
Lemma xor_ok a : forall b, bytes_ok a -> bytes_ok b -> bytes_ok (xor_bytes a b).
Proof.
  induction a; intros [|y b] A B; cbn [xor_bytes]; try constructor; apply bytes_ok_cons in A as [A1 A2]; apply bytes_ok_cons in B as [B1 B2]; [apply lxor_byte; auto|apply IHa; auto].
Qed.
Lemma xor_twice a : forall b, length b = length a -> xor_bytes (xor_bytes a b) b = a.
Proof. induction a; intros [|y b] H; cbn [xor_bytes length] in *; try lia; [reflexivity|]. rewrite IHa by lia. rewrite Z.lxor_assoc, Z.lxor_nilpotent, Z.lxor_0_r. reflexivity. Qed.
Lemma same_refl a : same_bytes a a = true.
Proof. induction a; cbn [same_bytes]; [reflexivity|]. rewrite Z.eqb_refl. exact IHa. Qed.
Lemma after_zeros k m : after_one (repeat 0 k ++ [1] ++ m) = Some m.
Proof. induction k; cbn [repeat app after_one]; [reflexivity|]. exact IHk. Qed.

Lemma pad_len k seed m : length seed = 20%nat -> zlen m <= k - 42 -> zlen (oaep_pad k seed m) = k.
Proof.
  intros S M. unfold oaep_pad. cbv zeta. unfold zlen in *. cbn [app length]. rewrite app_length, !xor_len by (rewrite mgf1_len; auto).
  rewrite !app_length, repeat_length, sha1_len. cbn [length]. lia.
Qed.
Lemma pad_bytes k seed m : bytes_ok seed -> bytes_ok m -> bytes_ok (oaep_pad k seed m).
Proof.
  intros S M. unfold oaep_pad. cbv zeta. apply bytes_ok_cons. split; [unfold is_byte; lia|].
  apply bytes_ok_app. split; [apply xor_ok; [exact S|apply mgf1_bytes]|]. apply xor_ok; [|apply mgf1_bytes].
  rewrite !bytes_ok_app. split; [|split; [|split]]; [apply sha1_bytes|apply bytes_ok_repeat0|repeat constructor; lia|exact M].
Qed.
Lemma first20 (s t : bytes) : length s = 20%nat -> firstn 20 (s ++ t) = s.
Proof. intros L. rewrite <- L, firstn_app, Nat.sub_diag, firstn_all, firstn_O. apply app_nil_r. Qed.
Lemma skip20 (s t : bytes) : length s = 20%nat -> skipn 20 (s ++ t) = t.
Proof. intros L. rewrite <- L, skipn_app, Nat.sub_diag, skipn_all, skipn_O. reflexivity. Qed.
Lemma unpad_pad k seed m : length seed = 20%nat -> oaep_unpad (oaep_pad k seed m) = Some m.
Proof.
  intros S. unfold oaep_pad. cbv zeta. set (db := sha1 [] ++ _). set (masked := xor_bytes db _).
  assert (Lm : length masked = length db) by (apply xor_len, mgf1_len). cbn [app oaep_unpad]. cbv zeta.
  assert (Ls : length (xor_bytes seed (mgf1 masked 20)) = 20%nat) by (rewrite xor_len by (rewrite mgf1_len; auto); exact S).
  rewrite !first20, !skip20 by exact Ls.
  rewrite xor_twice by (rewrite mgf1_len; auto). rewrite Lm. unfold masked at 1 2. rewrite !xor_twice by apply mgf1_len.
  cbn [Z.eqb andb]. unfold db. rewrite first20, skip20, same_refl by apply sha1_len. apply after_zeros.
Qed.

Lemma bytes_of_value l : bytes_ok l -> be_bytes (length l) (be_value l) = l.
Proof.
  induction l as [|x l IH] using rev_ind; intros B; [reflexivity|]. apply bytes_ok_app in B as [B1 B2]. apply bytes_ok_cons in B2 as [B2 _]. unfold is_byte in B2.
  rewrite app_length, Nat.add_comm. cbn [length Nat.add be_bytes]. unfold be_value in *. rewrite fold_left_app. cbn [fold_left].
  rewrite Z.div_add_l, Z.div_small, Z.add_0_r, IH by (auto; lia). rewrite Z.add_comm, Z.mod_add, Z.mod_small by lia. reflexivity.
Qed.
Lemma value_zero l : be_value (0 :: l) = be_value l.
Proof. reflexivity. Qed.
Lemma pad_small k seed m : length seed = 20%nat -> bytes_ok seed -> bytes_ok m -> zlen m <= k - 42 -> 0 <= be_value (oaep_pad k seed m) < 256 ^ (k - 1).
Proof.
  intros S Bs Bm M. pose proof (pad_len k seed m S M) as L. pose proof (pad_bytes k seed m Bs Bm) as B.
  assert (H : exists t, oaep_pad k seed m = 0 :: t) by (unfold oaep_pad; cbv zeta; cbn [app]; eauto). destruct H as (t & H). rewrite H in *.
  rewrite value_zero. apply bytes_ok_cons in B as [_ B]. apply be_value_bound in B. rewrite zlen_cons in L. replace (k - 1) with (zlen t) by lia. exact B.
Qed.

Lemma enc_dec pub priv ps k seed m : rk_n pub = rk_n priv -> rk_e pub = rk_e priv -> rsa_numbers (rk_n priv) (rk_e priv) (rk_d priv) ps -> takes_bytes k (rk_n priv) ->
  length seed = 20%nat -> bytes_ok seed -> bytes_ok m -> zlen m <= k - 42 ->
  exists c, rsa_enc pub seed m = Some c /\ bytes_ok c /\ zlen c = k /\ rsa_dec priv c = Some m.
Proof.
  intros En Ee R T S Bs Bm M. pose proof (size_takes _ _ T) as Z. destruct T as (K & T1 & T2). pose proof (rn_public _ _ _ _ R) as E. pose proof (rn_private _ _ _ _ R) as D.
  pose proof (pad_small k seed m S Bs Bm M) as P. set (x := be_value (oaep_pad k seed m)) in *. pose proof (zlen_nonneg m).
  assert (N : 0 < rk_n priv) by lia.
  unfold rsa_enc, rsa_dec, rsa_usable. rewrite En, Ee, Z.
  replace (2 <=? rk_e priv) with true by lia. replace (rk_e priv <=? 2147483647) with true by lia. replace (0 <? rk_n priv) with true by lia.
  replace (k - 42 <? zlen m) with false by lia. cbn [negb orb andb].
  eexists. split; [reflexivity|]. fold x. rewrite (power_spec x) by lia. pose proof (Z.mod_pos_bound (x ^ rk_e priv) (rk_n priv) N) as B. set (y := x ^ rk_e priv mod rk_n priv) in *.
  split; [apply be_bytes_ok|]. assert (L : zlen (be_bytes (Z.to_nat k) y) = k) by (unfold zlen; rewrite be_bytes_len; lia). split; [exact L|].
  rewrite L, be_value_bytes by (rewrite Z2Nat.id; lia).
  replace (k <? k) with false by lia. replace (k <? 42) with false by lia. replace (rk_n priv <? y) with false by lia. cbn [orb].
  rewrite power_spec by lia. unfold y. rewrite <- Zpower_mod by lia. rewrite (rsa_inverse _ _ _ ps) by (auto; lia).
  unfold x. pose proof (pad_len k seed m S M) as PL. replace (Z.to_nat k) with (length (oaep_pad k seed m)) by (unfold zlen in PL; lia).
  rewrite bytes_of_value by (apply pad_bytes; auto). apply unpad_pad, S.
Qed.
Lemma rsa_contract env keys seeds pub priv ps k :
  rk_n (keys pub) = rk_n (keys priv) -> rk_e (keys pub) = rk_e (keys priv) ->
  rsa_numbers (rk_n (keys priv)) (rk_e (keys priv)) (rk_d (keys priv)) ps -> takes_bytes k (rk_n (keys priv)) -> 42 < k ->
  (forall r, bytes_ok (seeds r) /\ zlen (seeds r) = 20) -> rsa_pair (rsa_env env keys seeds) pub priv.
Proof.
  intros En Ee R T K S. unfold rsa_pair. cbn [rsa_env key_size oaep_enc oaep_dec]. rewrite En, (size_takes _ _ T). split; [exact K|]. split; [reflexivity|].
  intros r m Bm M. destruct (S r) as [S1 S2]. apply enc_dec with ps; auto. unfold zlen in S2. lia.
Qed.
Lemma after_one_bytes d : forall m, bytes_ok d -> after_one d = Some m -> bytes_ok m.
Proof.
  induction d as [|x d IH]; intros m B H; cbn [after_one] in H; [discriminate|]. apply bytes_ok_cons in B as [_ B]. destruct (x =? 0); [exact (IH m B H)|]. destruct (x =? 1); [|discriminate].
  injection H as <-. exact B.
Qed.
Lemma rsa_dec_bytes k c m : rsa_dec k c = Some m -> bytes_ok m.
Proof.
  unfold rsa_dec. destruct (_ || _); [discriminate|]. set (em := be_bytes _ _). assert (B : bytes_ok em) by apply be_bytes_ok. clearbody em.
  destruct em as [|y r]; cbn [oaep_unpad]; [discriminate|]. cbv zeta. destruct (_ && _); [|discriminate]. intros H. apply bytes_ok_cons in B as [_ B].
  eapply after_one_bytes; [|exact H]. apply bytes_ok_skipn, xor_ok; [apply bytes_ok_skipn, B|apply mgf1_bytes].
Qed.
Lemma rsa_key_ok env keys seeds p : 0 < rk_n (keys p) -> key_ok (rsa_env env keys seeds) (Some p).
Proof.
  intros N. cbn [key_ok rsa_env key_size oaep_dec]. split; [|intros c m _; apply rsa_dec_bytes].
  unfold n_size. destruct (Z.eqb_spec (rk_n (keys p)) 0); [lia|]. pose proof (Z.log2_nonneg (Z.abs (rk_n (keys p)))). lia.
Qed.
