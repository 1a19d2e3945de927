(** Bit helpers. *)
From Verif Require Import Base LibBase Bits.

Lemma testbit_small n k : 0 <= n < 2 ^ k -> forall i, k <= i -> Z.testbit n i = false.
Proof.
  intros H i Hi. destruct (Z.ltb_spec i 0).
  { apply Z.testbit_neg_r; auto. }
  rewrite <- (Z.mod_small n (2 ^ k)) by auto. apply Z.mod_pow2_bits_high.
  destruct (Z.ltb_spec k 0); [|lia]. rewrite Z.pow_neg_r in H; lia.
Qed.
Lemma bits_small n k : 0 <= k -> 0 <= n -> (forall i, k <= i -> Z.testbit n i = false) -> n < 2 ^ k.
Proof.
  intros Hk Hn H. destruct (Z.ltb_spec n (2 ^ k)); auto. exfalso.
  assert (0 < n). { pose proof (Z.pow_pos_nonneg 2 k). lia. }
  assert (k <= Z.log2 n) by (apply Z.log2_le_pow2; lia).
  specialize (H (Z.log2 n) ltac:(lia)). rewrite Z.bit_log2 in H; [discriminate|lia].
Qed.

Lemma land_shiftl1 v k : 0 <= k -> (Z.land v (Z.shiftl 1 k) >? 0) = Z.testbit v k.
Proof.
  intros. rewrite Z.shiftl_1_l.
  assert (E : Z.land v (2 ^ k) = if Z.testbit v k then 2 ^ k else 0).
  { apply Z.bits_inj'. intros n Hn. rewrite Z.land_spec, Z.pow2_bits_eqb by auto.
    destruct (Z.eqb_spec k n).
    - subst. destruct (Z.testbit v n) eqn:E; rewrite ?Z.pow2_bits_true, ?Z.bits_0; auto.
    - rewrite andb_false_r. destruct (Z.testbit v k); rewrite ?Z.pow2_bits_false, ?Z.bits_0; auto. }
  rewrite E. pose proof (Z.pow_pos_nonneg 2 k). destruct (Z.testbit v k); lia.
Qed.

Lemma bitmask_pow w off : 0 <= off < w -> bitmask w off = 2 ^ off.
Proof.
  intros. unfold bitmask. rewrite Z.shiftl_1_l. apply Z.mod_small. split; [apply Z.pow_nonneg; lia|].
  apply Z.pow_lt_mono_r; lia.
Qed.
Lemma bitmask_high w off : 0 <= w <= off -> bitmask w off = 0.
Proof.
  intros. unfold bitmask. rewrite Z.shiftl_1_l. replace off with (w + (off - w)) by lia.
  rewrite Z.pow_add_r by lia. rewrite Z.mul_comm. apply Z.mod_mul. pose proof (Z.pow_pos_nonneg 2 w). lia.
Qed.

Lemma getb_testbit w v off : 0 <= off < w -> getb w v off = Z.testbit v off.
Proof.
  intros. unfold getb. rewrite bitmask_pow by auto. rewrite <- Z.shiftl_1_l. apply land_shiftl1. lia.
Qed.

Lemma ones_sub w k : 0 <= k < w -> 2 ^ w - 1 - 2 ^ k = Z.ldiff (Z.ones w) (2 ^ k).
Proof.
  intros. replace (2 ^ w - 1) with (Z.ones w) by (rewrite Z.ones_equiv; lia).
  apply Z.sub_nocarry_ldiff. apply Z.bits_inj'. intros n Hn.
  rewrite Z.ldiff_spec, Z.bits_0, Z.pow2_bits_eqb by lia.
  destruct (Z.eqb_spec k n); auto. subst. rewrite Z.testbit_ones_nonneg by lia.
  destruct (Z.ltb_spec n w); auto. lia.
Qed.

Lemma setb_testbit w v off b i : 0 <= v < 2 ^ w -> 0 <= off < w -> 0 <= i ->
  Z.testbit (setb w v off b) i = if i =? off then b else Z.testbit v i.
Proof.
  intros Hv Ho Hi. unfold setb. rewrite bitmask_pow by auto. destruct b.
  - rewrite Z.lor_spec, Z.pow2_bits_eqb by lia. rewrite (Z.eqb_sym off i).
    destruct (i =? off); [apply orb_true_r|apply orb_false_r].
  - rewrite ones_sub by auto. rewrite Z.land_spec, Z.ldiff_spec, Z.pow2_bits_eqb by lia.
    rewrite (Z.eqb_sym off i). destruct (i =? off); [cbn; rewrite !andb_false_r; auto|].
    cbn [negb]. rewrite andb_true_r. destruct (Z.ltb_spec i w).
    + rewrite Z.testbit_ones_nonneg by lia. replace (i <? w) with true by lia. apply andb_true_r.
    + rewrite (testbit_small v w) by lia. auto.
Qed.
Lemma setb_range w v off b : 0 <= v < 2 ^ w -> 0 <= off < w -> 0 <= setb w v off b < 2 ^ w.
Proof.
  intros Hv Ho. assert (0 <= setb w v off b).
  { unfold setb. rewrite bitmask_pow by auto. destruct b.
    - apply Z.lor_nonneg. split; [lia|apply Z.pow_nonneg; lia].
    - apply Z.land_nonneg. left; lia. }
  split; auto. apply bits_small; [lia|auto|]. intros i Hi. rewrite setb_testbit by lia.
  replace (i =? off) with false by lia. eapply testbit_small; eauto.
Qed.
Lemma setb_high w v off b : 0 <= v < 2 ^ w -> 0 <= w <= off -> setb w v off b = v.
Proof.
  intros. unfold setb. rewrite bitmask_high by auto. destruct b.
  - apply Z.lor_0_r.
  - replace (2 ^ w - 1 - 0) with (Z.ones w) by (rewrite Z.ones_equiv; lia).
    rewrite Z.land_ones by lia. apply Z.mod_small. auto.
Qed.

(** Setting a bit that is already set / is set again *)
Lemma setb_true_id w v off : 0 <= off < w -> Z.testbit v off = true -> setb w v off true = v.
Proof.
  intros. unfold setb. rewrite bitmask_pow by auto. apply Z.bits_inj'. intros n Hn.
  rewrite Z.lor_spec, Z.pow2_bits_eqb by lia. destruct (Z.eqb_spec off n); [subst; rewrite H0; auto|apply orb_false_r].
Qed.
Lemma setb_false_id w v off : 0 <= v < 2 ^ w -> 0 <= off < w -> Z.testbit v off = false -> setb w v off false = v.
Proof.
  intros. apply Z.bits_inj'. intros n Hn. rewrite setb_testbit by auto.
  destruct (Z.eqb_spec n off); congruence.
Qed.
Lemma setb_setb w v off b c : 0 <= v < 2 ^ w -> 0 <= off < w -> setb w (setb w v off b) off c = setb w v off c.
Proof.
  intros. apply Z.bits_inj'. intros n Hn.
  rewrite !setb_testbit; auto; try (apply setb_range; auto). destruct (n =? off); auto.
Qed.
Lemma setb_comm w v o1 o2 b c : 0 <= v < 2 ^ w -> 0 <= o1 < w -> 0 <= o2 < w -> o1 <> o2 ->
  setb w (setb w v o1 b) o2 c = setb w (setb w v o2 c) o1 b.
Proof.
  intros. apply Z.bits_inj'. intros n Hn.
  rewrite !setb_testbit; auto; try (apply setb_range; auto).
  destruct (Z.eqb_spec n o2), (Z.eqb_spec n o1); auto; lia.
Qed.

(** ** Property word *)
Lemma is_u16_pow p : is_u16 p <-> 0 <= p < 2 ^ 16. Proof. reflexivity. Qed.

Lemma is_enable_packet_bit p : is_enable_packet p = Z.testbit p 13.
Proof. apply land_shiftl1. lia. Qed.
Lemma is_enable_encrypt_bit p : is_enable_encrypt p = Z.testbit p 10.
Proof. apply land_shiftl1. lia. Qed.

Lemma get_body_size_mod p : get_body_size p = p mod 1024.
Proof.
  unfold get_body_size, u16. change 65536 with (2 ^ 16). change 1023 with (Z.ones 10).
  rewrite Z.land_ones by lia. change 1024 with (2 ^ 10).
  apply Z.bits_inj'. intros n Hn.
  destruct (Z.ltb_spec n 10).
  - rewrite !Z.mod_pow2_bits_low by lia. rewrite Z.shiftr_spec by lia.
    rewrite Z.mod_pow2_bits_low by lia. rewrite Z.shiftl_spec by lia. f_equal. lia.
  - rewrite !Z.mod_pow2_bits_high by lia. auto.
Qed.

Lemma set_body_size_ok p s : is_u16 p -> 0 <= s <= 1023 -> set_body_size p s = Ok (p / 1024 * 1024 + s).
Proof.
  intros Hp Hs. unfold set_body_size. replace (s >? 1023) with false by lia. f_equal.
  change 1024 with (2 ^ 10). rewrite <- Z.shiftr_div_pow2, <- Z.shiftl_mul_pow2 by lia.
  symmetry. rewrite <- Z.lxor_lor.
  - apply Z.add_nocarry_lxor. apply Z.bits_inj'. intros n Hn. rewrite Z.land_spec, Z.bits_0.
    destruct (Z.ltb_spec n 10).
    + rewrite Z.shiftl_spec_low by lia. auto.
    + rewrite (testbit_small s 10) by (change (2 ^ 10) with 1024; lia). apply andb_false_r.
  - apply Z.bits_inj'. intros n Hn. rewrite Z.land_spec, Z.bits_0.
    destruct (Z.ltb_spec n 10).
    + rewrite Z.shiftl_spec_low by lia. auto.
    + rewrite (testbit_small s 10) by (change (2 ^ 10) with 1024; lia). apply andb_false_r.
Qed.
Lemma set_body_size_err p s : s > 1023 -> set_body_size p s = Err ErrBodyTooLong.
Proof. intros. unfold set_body_size. replace (s >? 1023) with true by lia. auto. Qed.
Lemma set_body_size_inv p s p' : set_body_size p s = Ok p' -> s <= 1023.
Proof. unfold set_body_size. destruct (s >? 1023) eqn:E; [discriminate|]. lia. Qed.

Lemma div1024_testbit p s i : 0 <= s <= 1023 -> 0 <= i ->
  Z.testbit (p / 1024 * 1024 + s) i = if i <? 10 then Z.testbit s i else Z.testbit p i.
Proof.
  intros Hs Hi. destruct (Z.ltb_spec i 10).
  - replace (Z.testbit s i) with (Z.testbit ((p / 1024 * 1024 + s) mod 2 ^ 10) i).
    + rewrite Z.mod_pow2_bits_low by lia. auto.
    + f_equal. change (2 ^ 10) with 1024. lia.
  - replace i with ((i - 10) + 10) by lia. rewrite <- !Z.div_pow2_bits by lia.
    f_equal. change (2 ^ 10) with 1024. lia.
Qed.

Lemma enable_packet_testbit p i : 0 <= i -> Z.testbit (enable_packet p) i = (Z.testbit p i || (i =? 13)).
Proof.
  intros. unfold enable_packet. rewrite Z.lor_spec, Z.shiftl_1_l, Z.pow2_bits_eqb by lia.
  rewrite (Z.eqb_sym 13). auto.
Qed.
Lemma enable_encrypt_testbit p i : 0 <= i -> Z.testbit (enable_encrypt p) i = (Z.testbit p i || (i =? 10)).
Proof.
  intros. unfold enable_encrypt. rewrite Z.lor_spec, Z.shiftl_1_l, Z.pow2_bits_eqb by lia.
  rewrite (Z.eqb_sym 10). auto.
Qed.
Lemma enable_packet_u16 p : is_u16 p -> is_u16 (enable_packet p).
Proof.
  unfold is_u16. intros. assert (0 <= enable_packet p).
  { unfold enable_packet. apply Z.lor_nonneg. split; [lia|]. vm_compute. discriminate. }
  split; auto. change 65536 with (2 ^ 16). apply bits_small; auto; [lia|]. intros.
  rewrite enable_packet_testbit by lia. rewrite (testbit_small p 16) by (auto; change (2^16) with 65536; lia). lia.
Qed.
Lemma enable_encrypt_u16 p : is_u16 p -> is_u16 (enable_encrypt p).
Proof.
  unfold is_u16. intros. assert (0 <= enable_encrypt p).
  { unfold enable_encrypt. apply Z.lor_nonneg. split; [lia|]. vm_compute. discriminate. }
  split; auto. change 65536 with (2 ^ 16). apply bits_small; auto; [lia|]. intros.
  rewrite enable_encrypt_testbit by lia. rewrite (testbit_small p 16) by (auto; change (2^16) with 65536; lia). lia.
Qed.
Lemma enable_packet_id p : Z.testbit p 13 = true -> enable_packet p = p.
Proof.
  intros. apply Z.bits_inj'. intros. rewrite enable_packet_testbit by auto.
  destruct (Z.eqb_spec n 13); subst; rewrite ?H; auto. apply orb_false_r.
Qed.
