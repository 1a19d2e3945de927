(** Rsa.v pads and raises as the standard asks. *)
From Verif Require Import Base LibBase EntTerm ProofRound2 ProofSafe Sha1 Rsa SpecRsa SpecSha ProofRsa ProofSha ProofSha2.

Lemma same_nth (a b : bytes) : length a = length b -> (forall j, (j < length a)%nat -> nth j a 0 = nth j b 0) -> a = b.
Proof. intros L H. apply (nth_ext _ _ 0 0); auto. Qed.
Lemma four_bytes c n : bytes_ok c -> length c = 4%nat -> number c = n -> c = be_bytes 4 n.
Proof. intros B L <-. rewrite number_value, <- L. symmetry. apply bytes_of_value, B. Qed.
Lemma mgf_nth seed k : forall i j, (j < 20 * k)%nat -> nth j (mgf_blocks k i seed) 0 = nth (j mod 20) (sha1 (seed ++ be_bytes 4 (i + Z.of_nat (j / 20)))) 0.
Proof.
  induction k as [|k IH]; intros i j J; [lia|]. cbn [mgf_blocks]. destruct (Nat.lt_ge_cases j 20) as [L|L].
  - rewrite app_nth1 by (rewrite sha1_len; auto). rewrite Nat.mod_small, Nat.div_small by auto. change (Z.of_nat 0) with 0. rewrite Z.add_0_r. reflexivity.
  - rewrite app_nth2 by (rewrite sha1_len; auto). rewrite sha1_len, IH by lia. replace j with ((j - 20) + 1 * 20)%nat at 3 4 by lia. rewrite Nat.mod_add, Nat.div_add by lia.
    do 4 f_equal. lia.
Qed.
Lemma mgf1_nth seed len j : (j < len)%nat -> nth j (mgf1 seed len) 0 = nth (j mod 20) (sha1 (seed ++ be_bytes 4 (Z.of_nat (j / 20)))) 0.
Proof. intros J. unfold mgf1. rewrite nth_first by auto. rewrite mgf_nth; [reflexivity|]. pose proof (Nat.div_mod len 20 ltac:(lia)). pose proof (Nat.mod_upper_bound len 20 ltac:(lia)). lia. Qed.
Lemma mask_exact seed len m : bytes_ok seed -> zlen seed < 2 ^ 32 -> Z.of_nat len < 2 ^ 32 -> mask seed len m <-> m = mgf1 seed len.
Proof.
  intros B S0 N. assert (BB : forall c, bytes_ok c -> bytes_ok (seed ++ c)) by (intros; apply bytes_ok_app; auto).
  assert (LL : forall c, length c = 4%nat -> 8 * zlen (seed ++ c) < 2 ^ 64) by (intros c C; unfold zlen in *; rewrite app_length, C; lia). split.
  - intros (L & H). apply same_nth; [rewrite mgf1_len; auto|]. intros j J. rewrite L in J. destruct (H j J) as (c & d & C1 & C2 & C3 & D & ->).
    rewrite mgf1_nth by auto. apply sha1_exact in D; [|auto|auto]. subst d. rewrite (four_bytes c _ C1 C2 C3). reflexivity.
  - intros ->. split; [apply mgf1_len|]. intros j J. exists (be_bytes 4 (Z.of_nat (j / 20))), (sha1 (seed ++ be_bytes 4 (Z.of_nat (j / 20)))).
    split; [apply be_bytes_ok|]. split; [apply be_bytes_len|]. split; [rewrite number_value; apply be_value_bytes|].
    + change (256 ^ Z.of_nat 4) with (2 ^ 32). assert (j / 20 <= j)%nat by (apply Nat.div_le_upper_bound; lia). lia.
    + split; [apply sha1_digest; [apply BB, be_bytes_ok|apply LL, be_bytes_len]|apply mgf1_nth, J].
Qed.
Lemma xor_nth a : forall b j, length a = length b -> nth j (xor_bytes a b) 0 = Z.lxor (nth j a 0) (nth j b 0).
Proof. induction a as [|x a IH]; intros [|y b] j L; cbn [length] in L; try lia; [destruct j; reflexivity|]. destruct j; [reflexivity|]. cbn [xor_bytes nth]. apply IH. lia. Qed.
Lemma xored_exact a b c : length a = length b -> xored a b c <-> c = xor_bytes a b.
Proof.
  intros L. split.
  - intros (_ & M & H). apply same_nth; [rewrite xor_len; auto; lia|]. intros j _. rewrite H, xor_nth by auto. reflexivity.
  - intros ->. split; [exact L|]. split; [rewrite xor_len; auto|]. intros j. apply xor_nth, L.
Qed.
Lemma no_message : digest [] (sha1 []). Proof. apply sha1_digest; [constructor|reflexivity]. Qed.
Lemma encoding_pad k seed m : k < 2 ^ 32 -> bytes_ok seed -> length seed = 20%nat -> bytes_ok m -> zlen m <= k - 42 -> encoding k seed m (oaep_pad k seed m).
Proof.
  intros K B S0 M L. set (z := Z.to_nat (k - zlen m - 42)). set (db := sha1 [] ++ repeat 0 z ++ [1] ++ m).
  assert (DL : zlen db = k - 21). { unfold db, zlen. rewrite !app_length, sha1_len, repeat_length. cbn [length]. unfold zlen in L, z. unfold z. unfold zlen. lia. }
  assert (BD : bytes_ok db). { unfold db. rewrite !bytes_ok_app. split; [apply sha1_bytes|]. split; [apply bytes_ok_repeat0|]. split; [repeat constructor; unfold is_byte; lia|exact M]. }
  set (db1 := xor_bytes db (mgf1 seed (length db))). assert (L1 : length db1 = length db) by (apply xor_len, mgf1_len).
  assert (B1 : bytes_ok db1) by (apply xor_ok; [exact BD|apply mgf1_bytes]).
  exists (sha1 []), z, (mgf1 seed (length db)), db1, (mgf1 db1 20), (xor_bytes seed (mgf1 db1 20)). split; [apply no_message|]. cbv zeta. fold db. split; [exact DL|].
  split; [apply mask_exact; [exact B|unfold zlen; lia|unfold zlen in DL; lia|reflexivity]|]. split; [apply xored_exact; [rewrite mgf1_len; auto|reflexivity]|].
  split; [apply mask_exact; [exact B1|unfold zlen in *; lia|lia|reflexivity]|]. split; [apply xored_exact; [rewrite mgf1_len; auto|reflexivity]|]. reflexivity.
Qed.
Lemma encoding_is k seed m em : k < 2 ^ 32 -> bytes_ok seed -> length seed = 20%nat -> bytes_ok m \/ bytes_ok em -> encoding k seed m em -> em = oaep_pad k seed m /\ zlen m <= k - 42.
Proof.
  intros K B S0 O (lh & z & m1 & db1 & m2 & s1 & H & E). cbv zeta in E. destruct E as (DL & E1 & E2 & E3 & E4 & ->).
  apply sha1_exact in H; [subst lh|constructor|reflexivity]. assert (Z0 : z = Z.to_nat (k - zlen m - 42) /\ zlen m <= k - 42).
  { unfold zlen in *. rewrite !app_length, sha1_len, repeat_length in DL. cbn [length] in DL. lia. }
  destruct Z0 as (-> & ML). set (db := sha1 [] ++ _) in *. split; [|exact ML]. apply mask_exact in E1; [|exact B|unfold zlen; lia|unfold zlen in DL; lia]. subst m1.
  apply xored_exact in E2; [|rewrite mgf1_len; auto]. assert (L1 : length db1 = length db) by (rewrite E2; apply xor_len, mgf1_len).
  assert (B1 : bytes_ok db1).
  { destruct O as [O|O]; [|apply bytes_ok_app in O as [_ O]; apply bytes_ok_app in O as [_ O]; exact O]. rewrite E2. apply xor_ok; [|apply mgf1_bytes].
    unfold db. rewrite !bytes_ok_app. split; [apply sha1_bytes|]. split; [apply bytes_ok_repeat0|]. split; [repeat constructor; unfold is_byte; lia|exact O]. }
  apply mask_exact in E3; [|exact B1|unfold zlen in *; lia|lia]. subst m2. apply xored_exact in E4; [|rewrite mgf1_len; auto]. subst s1 db1. reflexivity.
Qed.
Lemma same_eq a : forall b, same_bytes a b = true -> a = b.
Proof. induction a as [|x a IH]; intros [|y b] H; cbn [same_bytes] in H; try discriminate; [reflexivity|]. apply andb_prop in H as [H1 H2]. f_equal; [lia|auto]. Qed.
Lemma after_one_inv d : forall m, after_one d = Some m -> exists z, d = repeat 0 z ++ [1] ++ m.
Proof.
  induction d as [|x d IH]; intros m H; cbn [after_one] in H; [discriminate|]. destruct (Z.eqb_spec x 0) as [->|].
  - destruct (IH m H) as (z & ->). exists (S z). reflexivity.
  - destruct (Z.eqb_spec x 1) as [->|]; [|discriminate]. injection H as ->. exists O. reflexivity.
Qed.
Lemma unpad_inv em m : 42 <= zlen em -> bytes_ok em -> oaep_unpad em = Some m -> exists seed, bytes_ok seed /\ length seed = 20%nat /\ bytes_ok m /\ zlen m <= zlen em - 42 /\ em = oaep_pad (zlen em) seed m.
Proof.
  intros L B. destruct em as [|y r]; [discriminate|]. cbn [oaep_unpad]. cbv zeta. set (masked := skipn 20 r). set (s1 := firstn 20 r). set (seed := xor_bytes s1 (mgf1 masked 20)).
  set (db := xor_bytes masked (mgf1 seed (length masked))). apply bytes_ok_cons in B as [By Br]. rewrite zlen_cons in *.
  assert (LS : length s1 = 20%nat) by (unfold s1; rewrite firstn_length; unfold zlen in L; lia). assert (LM : zlen masked = zlen r - 20) by (unfold masked, zlen in *; rewrite skipn_length; lia).
  assert (ER : r = s1 ++ masked) by (symmetry; apply firstn_skipn). assert (BS : bytes_ok seed) by (apply xor_ok; [apply bytes_ok_firstn, Br|apply mgf1_bytes]).
  assert (LD : length db = length masked) by (apply xor_len, mgf1_len). assert (BD : bytes_ok db) by (apply xor_ok; [apply bytes_ok_skipn, Br|apply mgf1_bytes]).
  assert (SL : length seed = 20%nat) by (unfold seed; rewrite xor_len; [exact LS|rewrite mgf1_len; auto]).
  destruct (Z.eqb_spec y 0) as [->|]; [|discriminate]. cbn [andb]. destruct (same_bytes _ _) eqn:S1; [|discriminate]. apply same_eq in S1. intros H.
  pose proof (after_one_bytes _ m (bytes_ok_skipn 20 db BD) H) as BM. destruct (after_one_inv _ _ H) as (z & Z0). exists seed. split; [exact BS|]. split; [exact SL|]. split; [exact BM|].
  assert (ED : db = sha1 [] ++ repeat 0 z ++ [1] ++ m) by (rewrite <- S1, <- Z0; symmetry; apply firstn_skipn).
  assert (LZ : Z.of_nat z = zlen r + 1 - zlen m - 42). { apply (f_equal (@length Z)) in ED. rewrite !app_length, sha1_len, repeat_length, LD in ED. cbn [length] in ED. unfold zlen in *. lia. }
  split; [lia|]. unfold oaep_pad. cbv zeta. replace (Z.to_nat (1 + zlen r - zlen m - 42)) with z by lia. rewrite <- ED.
  assert (EM : xor_bytes db (mgf1 seed (length db)) = masked) by (rewrite LD; apply xor_twice, mgf1_len). rewrite EM.
  assert (ES : xor_bytes seed (mgf1 masked 20) = s1) by (apply xor_twice; rewrite mgf1_len; auto). rewrite ES, ER. reflexivity.
Qed.

Lemma encrypts key k seed m c : takes_bytes k (rk_n key) -> 2 <= rk_e key <= 2 ^ 31 - 1 -> k < 2 ^ 32 -> bytes_ok seed -> length seed = 20%nat -> bytes_ok m ->
  rsa_enc key seed m = Some c <-> zlen m <= k - 42 /\ bytes_ok c /\ zlen c = k /\ exists em, encoding k seed m em /\ number c = number em ^ rk_e key mod rk_n key.
Proof.
  intros T E K B L M. pose proof (size_takes _ _ T) as N. destruct T as (K0 & T1 & T2). assert (0 < rk_n key) by (pose proof (Z.pow_pos_nonneg 256 (k - 1)); lia).
  unfold rsa_enc, rsa_usable. rewrite N. replace (2 <=? rk_e key) with true by lia. replace (rk_e key <=? 2147483647) with true by lia. replace (0 <? rk_n key) with true by lia. cbn [andb negb orb].
  set (x := fun em => be_value em ^ rk_e key mod rk_n key). assert (X : forall em, 0 <= x em < 256 ^ Z.of_nat (Z.to_nat k)).
  { intros em. unfold x. rewrite Z2Nat.id by lia. pose proof (Z.mod_pos_bound (be_value em ^ rk_e key) (rk_n key)). lia. }
  rewrite power_spec by lia. change (be_value (oaep_pad k seed m) ^ rk_e key mod rk_n key) with (x (oaep_pad k seed m)). split.
  - destruct (Z.ltb_spec (k - 42) (zlen m)); [discriminate|]. intros Q. injection Q as <-. split; [lia|]. split; [apply be_bytes_ok|]. split; [unfold zlen; rewrite be_bytes_len; lia|].
    exists (oaep_pad k seed m). split; [apply encoding_pad; auto|]. rewrite !number_value. apply be_value_bytes, X.
  - intros (ML & BC & LC & em & Q & V). replace (k - 42 <? zlen m) with false by lia. apply encoding_is in Q as [-> _]; auto. f_equal. rewrite !number_value in V. fold (x (oaep_pad k seed m)) in V.
    rewrite <- V. replace (Z.to_nat k) with (length c) by (unfold zlen in LC; lia). apply bytes_of_value, BC.
Qed.
Lemma decrypts key k c m : takes_bytes k (rk_n key) -> 2 <= rk_e key <= 2 ^ 31 - 1 -> 0 < rk_d key -> k < 2 ^ 32 -> bytes_ok c ->
  rsa_dec key c = Some m <-> 42 <= k /\ zlen c <= k /\ number c <= rk_n key /\
    exists em seed, bytes_ok em /\ zlen em = k /\ number em = number c ^ rk_d key mod rk_n key /\ bytes_ok seed /\ length seed = 20%nat /\ encoding k seed m em.
Proof.
  intros T E D K BC. pose proof (size_takes _ _ T) as N. destruct T as (K0 & T1 & T2). assert (0 < rk_n key) by (pose proof (Z.pow_pos_nonneg 256 (k - 1)); lia).
  unfold rsa_dec, rsa_usable. rewrite N. replace (2 <=? rk_e key) with true by lia. replace (rk_e key <=? 2147483647) with true by lia. replace (0 <? rk_n key) with true by lia. cbn [andb negb orb].
  rewrite power_spec by lia. rewrite !number_value. set (x := be_value c ^ rk_d key mod rk_n key). assert (X : 0 <= x < 256 ^ Z.of_nat (Z.to_nat k)).
  { unfold x. rewrite Z2Nat.id by lia. pose proof (Z.mod_pos_bound (be_value c ^ rk_d key) (rk_n key)). lia. }
  split.
  - destruct (Z.ltb_spec k (zlen c)); [discriminate|]. destruct (Z.ltb_spec k 42); [discriminate|]. destruct (Z.ltb_spec (rk_n key) (be_value c)); [discriminate|]. cbn [orb]. intros U.
    assert (EL : zlen (be_bytes (Z.to_nat k) x) = k) by (unfold zlen; rewrite be_bytes_len; lia). apply unpad_inv in U; [|lia|apply be_bytes_ok]. rewrite EL in U. destruct U as (seed & S1 & S2 & BM & ML & EM).
    split; [lia|]. split; [lia|]. split; [lia|]. exists (be_bytes (Z.to_nat k) x), seed. split; [apply be_bytes_ok|]. split; [exact EL|]. split; [rewrite number_value; apply be_value_bytes, X|].
    split; [exact S1|]. split; [exact S2|]. rewrite EM. apply encoding_pad; auto.
  - intros (A1 & A2 & A3 & em & seed & B1 & B2 & B3 & B4 & B5 & B6). replace (k <? zlen c) with false by lia. replace (k <? 42) with false by lia. replace (rk_n key <? be_value c) with false by lia. cbn [orb].
    rewrite number_value in B3. rewrite <- B3. replace (Z.to_nat k) with (length em) by (unfold zlen in B2; lia). rewrite bytes_of_value by exact B1.
    apply encoding_is in B6 as [-> _]; auto. apply unpad_pad, B5.
Qed.
