(** Decimal digits and BCD. *)
From Verif Require Import Base LibBase Bcd.

Definition is_digit (d : Z) : Prop := 0 <= d < 10.
Definition digits (ds : list Z) : Prop := Forall is_digit ds.
(** Value of a digit list, most significant first. *)
Definition dval (ds : list Z) : Z := fold_left (fun a d => a * 10 + d) ds 0.
(** Drop leading zeros. *)
Fixpoint dropz (ds : list Z) : list Z :=
  match ds with
  | [] => []
  | d :: t => if d =? 0 then dropz t else ds
  end.

Lemma dval_acc ds a : fold_left (fun a d => a * 10 + d) ds a = a * 10 ^ zlen ds + dval ds.
Proof.
  revert a. unfold dval. induction ds; intros; cbn [fold_left].
  - change (zlen (@nil Z)) with 0. lia.
  - rewrite IHds. rewrite (IHds (0 * 10 + a)). zl. pose proof (zlen_nonneg ds).
    rewrite Z.pow_add_r by lia. change (10 ^ 1) with 10. ring.
Qed.
Lemma dval_app a b : dval (a ++ b) = dval a * 10 ^ zlen b + dval b.
Proof. unfold dval. rewrite fold_left_app, dval_acc. reflexivity. Qed.
Lemma dval_cons d ds : dval (d :: ds) = d * 10 ^ zlen ds + dval ds.
Proof. change (d :: ds) with ([d] ++ ds). rewrite dval_app. reflexivity. Qed.
Lemma dval_single d : dval [d] = d. Proof. reflexivity. Qed.
Lemma dval_bound ds : digits ds -> 0 <= dval ds < 10 ^ zlen ds.
Proof.
  induction 1; [vm_compute; intuition discriminate|]. rewrite dval_cons. zl. pose proof (zlen_nonneg l).
  rewrite Z.pow_add_r by lia. change (10 ^ 1) with 10. unfold is_digit in *. nia.
Qed.
Lemma dval_repeat0 k ds : dval (repeat 0 k ++ ds) = dval ds.
Proof.
  induction k; cbn [repeat app]; auto.
Qed.
Lemma dval_dropz ds : dval (dropz ds) = dval ds.
Proof.
  induction ds; cbn [dropz]; auto. destruct (Z.eqb_spec a 0); auto. subst. rewrite IHds, dval_cons. lia.
Qed.
Lemma dropz_digits ds : digits ds -> digits (dropz ds).
Proof. induction 1; cbn; [constructor|]. destruct (x =? 0); auto. constructor; auto. Qed.
Lemma dropz_repeat0 k ds : dropz (repeat 0 k ++ ds) = dropz ds.
Proof. induction k; cbn; auto. Qed.
Lemma dropz_id d ds : d <> 0 -> dropz (d :: ds) = d :: ds.
Proof. intros. cbn. destruct (Z.eqb_spec d 0); auto; contradiction. Qed.
Lemma dropz_nil_dval ds : dropz ds = [] -> dval ds = 0.
Proof. intros. rewrite <- dval_dropz, H. reflexivity. Qed.

(** ** FormatUint *)
Lemma digits_rev_spec fuel : forall n, 0 <= n < 2 ^ Z.of_nat fuel ->
  let l := rev (digits_rev fuel n) in
  digits l /\ dval l = n /\ (n = 0 /\ l = [0] \/ exists d t, l = d :: t /\ d <> 0).
Proof.
  induction fuel; intros n Hn; cbn zeta; cbn [digits_rev].
  - change (2 ^ Z.of_nat 0) with 1 in Hn. assert (n = 0) by lia. subst. cbn. repeat split; auto.
    repeat constructor; lia.
  - destruct (Z.ltb_spec n 10).
    + cbn. repeat split.
      * repeat constructor; lia.
      * destruct (Z.eq_dec n 0); [left; subst; auto|right; exists n, []; auto].
    + rewrite Nat2Z.inj_succ, Z.pow_succ_r in Hn by lia.
      assert (Hq : 0 <= n / 10 < 2 ^ Z.of_nat fuel) by lia.
      specialize (IHfuel _ Hq). cbn zeta in IHfuel. destruct IHfuel as (H1 & H2 & H3).
      cbn [rev]. repeat split.
      * apply Forall_app. split; auto. repeat constructor; lia.
      * rewrite dval_app, H2. change (10 ^ zlen [n mod 10]) with 10. rewrite dval_single. lia.
      * right. destruct H3 as [[H3 _]|(d & t & -> & Hd)]; [lia|]. exists d, (t ++ [n mod 10]). auto.
Qed.
Lemma dec_digits_spec n : 0 <= n ->
  digits (dec_digits n) /\ dval (dec_digits n) = n /\
  (n = 0 /\ dec_digits n = [0] \/ exists d t, dec_digits n = d :: t /\ d <> 0).
Proof.
  intros. unfold dec_digits. apply digits_rev_spec. pose proof (Z.log2_nonneg n).
  rewrite Z2Nat.id by lia. destruct (Z.eq_dec n 0); [subst; vm_compute; intuition discriminate|].
  split; auto. rewrite Z.add_1_r. apply Z.log2_spec. lia.
Qed.
Lemma dec_digits_nonempty n : 0 <= n -> dec_digits n <> [].
Proof.
  intros. destruct (dec_digits_spec n H) as (_ & _ & [[_ E]|(d & t & E & _)]); rewrite E; discriminate.
Qed.
Lemma dropz_dec_digits n : 0 < n -> dropz (dec_digits n) = dec_digits n.
Proof.
  intros. destruct (dec_digits_spec n) as (_ & _ & [[E _]|(d & t & E & Hd)]); try lia.
  rewrite E. apply dropz_id; auto.
Qed.

(** Digit lists without leading zero are determined by their value. *)
Lemma zlen_dropz_le ds : zlen (dropz ds) <= zlen ds.
Proof. induction ds; cbn [dropz]; [lia|]. destruct (a =? 0); zl; zl_in IHds; lia. Qed.
Lemma dval_lower d t : digits (d :: t) -> d <> 0 -> 10 ^ zlen t <= dval (d :: t).
Proof.
  intros H Hd. inversion H; subst. rewrite dval_cons. pose proof (dval_bound t H3).
  unfold is_digit in *. pose proof (zlen_nonneg t). pose proof (Z.pow_pos_nonneg 10 (zlen t)). nia.
Qed.
Lemma digits_inj_len a : forall b, digits a -> digits b -> zlen a = zlen b -> dval a = dval b -> a = b.
Proof.
  induction a; intros b Ha Hb Hl Hv.
  - symmetry. apply zlen_0. rewrite <- Hl. reflexivity.
  - destruct b; [zl_in Hl; pose proof (zlen_nonneg a0); lia|].
    zl_in Hl. inversion Ha; inversion Hb; subst. rewrite !dval_cons in Hv.
    assert (zlen a0 = zlen b) as Hl' by lia. rewrite Hl' in Hv.
    pose proof (dval_bound _ H2). pose proof (dval_bound _ H6). rewrite Hl' in H.
    pose proof (zlen_nonneg b). pose proof (Z.pow_pos_nonneg 10 (zlen b)).
    unfold is_digit in *. assert (a = z) by nia. subst. f_equal. apply IHa; auto; lia.
Qed.
Lemma zlen_dec_digits n k : 0 <= n -> 0 < k -> (zlen (dec_digits n) <= k <-> n < 10 ^ k).
Proof.
  intros Hn Hk. destruct (dec_digits_spec n Hn) as (Hd & Hv & H). pose proof (dval_bound _ Hd). rewrite Hv in *.
  split; intros.
  - apply Z.lt_le_trans with (10 ^ zlen (dec_digits n)); [lia|]. apply Z.pow_le_mono_r; lia.
  - destruct H as [[-> E]|(d & t & E & Hd0)].
    + rewrite E. cbn. lia.
    + destruct (Z.leb_spec (zlen (dec_digits n)) k) as [L|L]; auto. exfalso.
      rewrite E in *. apply dval_lower in Hd; auto. rewrite Hv in Hd. zl_in L.
      assert (10 ^ k <= 10 ^ zlen t) by (apply Z.pow_le_mono_r; lia). lia.
Qed.
Lemma dec_digits_unique d t n : digits (d :: t) -> d <> 0 -> dval (d :: t) = n -> dec_digits n = d :: t.
Proof.
  intros Hd Hne Hv. assert (Hpos : 10 ^ zlen t <= n) by (rewrite <- Hv; apply dval_lower; auto).
  pose proof (zlen_nonneg t). pose proof (Z.pow_pos_nonneg 10 (zlen t)).
  assert (Hn : 0 < n) by lia.
  destruct (dec_digits_spec n) as (Hd' & Hv' & [[E _]|(d' & t' & E & Hd0)]); try lia.
  apply digits_inj_len; auto; [|lia]. rewrite E in *.
  pose proof (dval_bound _ Hd). pose proof (dval_bound _ Hd'). pose proof (dval_lower _ _ Hd' Hd0).
  zl. zl_in H1. zl_in H2. rewrite Hv in *. rewrite Hv' in *. pose proof (zlen_nonneg t').
  destruct (Z.lt_trichotomy (zlen t) (zlen t')) as [L|[L|L]]; [|lia|].
  - exfalso. assert (10 ^ (1 + zlen t) <= 10 ^ zlen t') by (apply Z.pow_le_mono_r; lia). lia.
  - exfalso. assert (10 ^ (1 + zlen t') <= 10 ^ zlen t) by (apply Z.pow_le_mono_r; lia). lia.
Qed.
Lemma dec_digits_inj a b : 0 <= a -> 0 <= b -> dec_digits a = dec_digits b -> a = b.
Proof.
  intros Ha Hb E. destruct (dec_digits_spec a Ha) as (_ & <- & _).
  destruct (dec_digits_spec b Hb) as (_ & <- & _). rewrite E. auto.
Qed.

(** ** Characters *)
Lemma chars_app a b : chars (a ++ b) = chars a ++ chars b. Proof. apply map_app. Qed.
Lemma zlen_chars ds : zlen (chars ds) = zlen ds. Proof. unfold chars. apply zlen_map. Qed.
Lemma length_chars ds : length (chars ds) = length ds. Proof. apply map_length. Qed.
Lemma chars_inj a : forall b, chars a = chars b -> a = b.
Proof.
  induction a; destruct b; cbn; intros H; inversion H; auto. f_equal; [lia|]. apply IHa. auto.
Qed.
Lemma chars_bytes ds : digits ds -> bytes_ok (chars ds).
Proof. unfold digits, bytes_ok, chars. intros. apply Forall_map. eapply Forall_impl; [|eauto]. unfold is_digit, is_byte. intros. lia. Qed.
Lemma chars_all_digits ds : digits ds -> Forall (fun c => is_digit_char c = true) (chars ds).
Proof. unfold digits, chars. intros. apply Forall_map. eapply Forall_impl; [|eauto]. unfold is_digit, is_digit_char. intros. lia. Qed.
Lemma digit_chars s : Forall (fun c => is_digit_char c = true) s -> exists ds, digits ds /\ s = chars ds.
Proof.
  induction 1.
  - exists []. split; [constructor|auto].
  - destruct IHForall as (ds & Hd & ->). exists (x - 48 :: ds). unfold is_digit_char in H.
    split; [constructor; auto; unfold is_digit; lia|]. cbn. f_equal. lia.
Qed.
Lemma format_uint_inj a b : 0 <= a -> 0 <= b -> format_uint a = format_uint b -> a = b.
Proof. unfold format_uint. intros. apply dec_digits_inj; auto. apply chars_inj; auto. Qed.

Lemma parse_acc_spec ds : digits ds -> forall a, 0 <= a -> a * 10 ^ zlen ds + dval ds < 18446744073709551616 ->
  parse_acc a (chars ds) = Some (a * 10 ^ zlen ds + dval ds).
Proof.
  induction 1; intros a Ha Hlt; cbn [chars map parse_acc].
  - change (zlen (@nil Z)) with 0. cbn. f_equal. lia.
  - rewrite dval_cons in *. zl. zl_in Hlt. pose proof (zlen_nonneg l).
    rewrite Z.pow_add_r in * by lia. change (10 ^ 1) with 10 in *.
    pose proof (dval_bound l H0). pose proof (Z.pow_pos_nonneg 10 (zlen l)). unfold is_digit in H.
    unfold is_digit_char. replace (_ && _) with true by lia.
    replace (x + 48 - 48) with x by lia.
    assert (a * 10 + x < 18446744073709551616) by nia.
    replace (_ <? _) with true by lia. rewrite IHForall; [f_equal; ring|lia|nia].
Qed.
Lemma parse_uint_chars ds : digits ds -> ds <> [] -> dval ds < 18446744073709551616 ->
  parse_uint (chars ds) = Ok (dval ds).
Proof.
  intros. destruct ds; [contradiction|]. unfold parse_uint. cbn [chars map]. fold (chars ds).
  change (z + 48 :: chars ds) with (chars (z :: ds)). rewrite parse_acc_spec; auto; lia.
Qed.
Lemma parse_format n : 0 <= n < 18446744073709551616 -> parse_uint (format_uint n) = Ok n.
Proof.
  intros. destruct (dec_digits_spec n) as (H1 & H2 & _); [lia|]. unfold format_uint.
  rewrite parse_uint_chars; auto; [congruence|apply dec_digits_nonempty; lia|lia].
Qed.

(** ** Packing *)
Lemma bcd_byte_digits h l : is_digit h -> is_digit l -> bcd_byte (h + 48) (l + 48) = h * 16 + l.
Proof.
  unfold is_digit. intros. unfold bcd_byte, u8.
  replace (h + 48 - 48) with h by lia. replace (l + 48 - 48) with l by lia.
  rewrite (Z.mod_small h), (Z.mod_small l) by lia. rewrite Z.shiftl_mul_pow2 by lia. change (2 ^ 4) with 16.
  rewrite (Z.mod_small (h * 16)) by lia.
  assert (C : forall l, 0 <= l < 10 -> Z.lor (h * 16) l = h * 16 + l).
  { intros. rewrite <- Z.lxor_lor, <- Z.add_nocarry_lxor; auto;
    change 16 with (2 ^ 4); rewrite <- Z.shiftl_mul_pow2 by lia; apply Z.bits_inj'; intros i Hi;
    rewrite Z.land_spec, Z.bits_0; (destruct (Z.ltb_spec i 4);
     [rewrite Z.shiftl_spec_low by lia; reflexivity|];
     rewrite (Z.bits_above_log2 l0), andb_false_r; auto; [lia|];
     destruct (Z.eq_dec l0 0); [subst; cbn; lia|]; apply Z.log2_lt_pow2; [lia|];
     assert (2 ^ 4 <= 2 ^ i) by (apply Z.pow_le_mono_r; lia); lia). }
  apply C. lia.
Qed.
Lemma nib_hi h l : is_digit h -> is_digit l -> Z.shiftr (Z.land (h * 16 + l) 240) 4 = h.
Proof.
  unfold is_digit. intros.
  rewrite Z.shiftr_land. change (Z.shiftr 240 4) with (Z.ones 4). rewrite Z.land_ones by lia.
  rewrite Z.shiftr_div_pow2 by lia. change (2 ^ 4) with 16. lia.
Qed.
Lemma nib_lo h l : is_digit h -> is_digit l -> Z.land (h * 16 + l) 15 = l.
Proof.
  unfold is_digit. intros. change 15 with (Z.ones 4). rewrite Z.land_ones by lia. change (2 ^ 4) with 16. lia.
Qed.
Lemma even_ind {A} (P : list A -> Prop) :
  P [] -> (forall x y l, P l -> P (x :: y :: l)) -> forall l, Nat.even (length l) = true -> P l.
Proof.
  intros H0 H2. fix IH 1. destruct l as [|x [|y l]]; intros E; [exact H0|discriminate E|].
  apply H2. apply IH. exact E.
Qed.
Lemma bcd_unpack_pack ds : Nat.even (length ds) = true -> digits ds ->
  bcd_unpack (bcd_pack (chars ds)) = chars ds.
Proof.
  revert ds. apply (even_ind (fun ds => digits ds -> bcd_unpack (bcd_pack (chars ds)) = chars ds)); auto.
  intros h l ds IH Hd. inversion Hd as [|? ? Hh Ht]; subst. inversion Ht as [|? ? Hl Ht']; subst.
  cbn [chars map bcd_pack bcd_unpack]. fold (chars ds).
  rewrite bcd_byte_digits, nib_hi, nib_lo by auto. rewrite IH by auto. reflexivity.
Qed.
Lemma bcd_pack_length ds : Nat.even (length ds) = true -> (2 * length (bcd_pack (chars ds)) = length ds)%nat.
Proof.
  revert ds. apply (even_ind (fun ds => (2 * length (bcd_pack (chars ds)) = length ds)%nat)); auto.
  intros. cbn [chars map bcd_pack length]. fold (chars l). lia.
Qed.
Lemma bcd_pack_bytes ds : Nat.even (length ds) = true -> digits ds -> bytes_ok (bcd_pack (chars ds)).
Proof.
  revert ds. apply (even_ind (fun ds => digits ds -> bytes_ok (bcd_pack (chars ds)))); [intros; constructor|].
  intros h l ds IH Hd. inversion Hd as [|? ? Hh Ht]; subst. inversion Ht as [|? ? Hl Ht']; subst.
  cbn [chars map bcd_pack]. fold (chars ds). constructor; [|apply IH; auto].
  rewrite bcd_byte_digits by auto. unfold is_digit, is_byte in *. lia.
Qed.
Lemma bcd_unpack_app a b : bcd_unpack (a ++ b) = bcd_unpack a ++ bcd_unpack b.
Proof. induction a; cbn; congruence. Qed.
Lemma bcd_unpack_repeat0 k : bcd_unpack (repeat 0 k) = chars (repeat 0 (2 * k)).
Proof.
  induction k; auto. replace (2 * S k)%nat with (S (S (2 * k))) by lia. cbn [repeat bcd_unpack chars map].
  fold (chars (repeat 0 (2 * k))). rewrite <- IHk. reflexivity.
Qed.

(** Digits padded to even length. *)
Definition even_pad (ds : list Z) : list Z := if Nat.odd (length ds) then 0 :: ds else ds.
Lemma even_pad_even ds : Nat.even (length (even_pad ds)) = true.
Proof.
  unfold even_pad. destruct (Nat.odd (length ds)) eqn:E.
  - cbn [length]. rewrite Nat.even_succ. auto.
  - rewrite <- Nat.negb_odd, E. auto.
Qed.
Lemma even_pad_digits ds : digits ds -> digits (even_pad ds).
Proof. unfold even_pad. destruct (Nat.odd _); auto. constructor; auto. unfold is_digit; lia. Qed.
Lemma even_pad_dropz ds : dropz (even_pad ds) = dropz ds.
Proof. unfold even_pad. destruct (Nat.odd _); auto. Qed.
Lemma string_to_bcd_pack ds : string_to_bcd (chars ds) = bcd_pack (chars (even_pad ds)).
Proof. unfold string_to_bcd, even_pad. rewrite length_chars. destruct (Nat.odd _); auto. Qed.
Lemma even_pad_length ds n : (length ds <= 2 * n)%nat -> (length (even_pad ds) <= 2 * n)%nat.
Proof.
  unfold even_pad. intros. destruct (Nat.odd (length ds)) eqn:E; auto. cbn [length].
  apply Nat.odd_spec in E. destruct E as [k E]. lia.
Qed.
Lemma string_to_bcd_bytes ds : digits ds -> bytes_ok (string_to_bcd (chars ds)).
Proof. intros. rewrite string_to_bcd_pack. apply bcd_pack_bytes; auto using even_pad_even, even_pad_digits. Qed.
Lemma string_to_bcd_n_length s n : length (string_to_bcd_n s n) = n.
Proof.
  unfold string_to_bcd_n. destruct (Nat.ltb_spec n (length (string_to_bcd s))).
  - apply firstn_length_le. lia.
  - rewrite app_length, repeat_length. lia.
Qed.
Lemma string_to_bcd_n_bytes ds n : digits ds -> bytes_ok (string_to_bcd_n (chars ds) n).
Proof.
  intros. unfold string_to_bcd_n. destruct (_ <? _)%nat.
  - apply bytes_ok_firstn, string_to_bcd_bytes; auto.
  - apply bytes_ok_app. split; [apply bytes_ok_repeat0|apply string_to_bcd_bytes; auto].
Qed.
Lemma unpack_string_to_bcd_n ds n : digits ds -> (length ds <= 2 * n)%nat ->
  exists k, bcd_unpack (string_to_bcd_n (chars ds) n) = chars (repeat 0 k ++ ds) /\ (k + length ds = 2 * n)%nat.
Proof.
  intros Hd Hl. unfold string_to_bcd_n. rewrite string_to_bcd_pack.
  pose proof (bcd_pack_length _ (even_pad_even ds)). pose proof (even_pad_length ds n Hl).
  destruct (Nat.ltb_spec n (length (bcd_pack (chars (even_pad ds))))); [lia|].
  rewrite bcd_unpack_app, bcd_unpack_repeat0, bcd_unpack_pack by auto using even_pad_even, even_pad_digits.
  rewrite <- chars_app. unfold even_pad in *. destruct (Nat.odd (length ds)).
  - exists (2 * (n - length (bcd_pack (chars (0%Z :: ds)))) + 1)%nat. split; [|cbn [length] in *; lia].
    f_equal. rewrite repeat_app. cbn. rewrite <- app_assoc. reflexivity.
  - exists (2 * (n - length (bcd_pack (chars ds))))%nat. split; [auto|lia].
Qed.

(** ** Unpacking with leading zeros removed *)
Fixpoint dropzc (s : bytes) : bytes :=
  match s with
  | [] => []
  | c :: t => if c =? 48 then dropzc t else s
  end.
Lemma dropzc_chars ds : dropzc (chars ds) = chars (dropz ds).
Proof.
  induction ds; cbn; auto. destruct (Z.eqb_spec (a + 48) 48), (Z.eqb_spec a 0); auto; lia.
Qed.
Lemma strip_zero_chars_dropzc s :
  strip_zero_chars s = match dropzc s with [] => None | r => Some r end.
Proof. induction s; cbn; auto. destruct (a =? 48); auto. Qed.
Lemma byte_nibbles b : is_byte b -> Z.shiftr (Z.land b 240) 4 = b / 16 /\ Z.land b 15 = b mod 16.
Proof.
  unfold is_byte. intros. split.
  - rewrite Z.shiftr_land. change (Z.shiftr 240 4) with (Z.ones 4). rewrite Z.land_ones by lia.
    rewrite Z.shiftr_div_pow2 by lia. change (2 ^ 4) with 16. lia.
  - change 15 with (Z.ones 4). rewrite Z.land_ones by lia. reflexivity.
Qed.
Lemma bcd_to_string_dropzc data : bytes_ok data -> bcd_to_string data = dropzc (bcd_unpack data).
Proof.
  unfold bcd_to_string, bcd_to_string_pad. induction 1; auto.
  cbn [strip0]. destruct (byte_nibbles x H) as [N1 N2].
  destruct (Z.eqb_spec x 0).
  - subst x. cbn [bcd_unpack]. rewrite IHForall. reflexivity.
  - rewrite strip_zero_chars_dropzc. cbn [bcd_unpack dropzc].
    destruct (Z.eqb_spec (Z.shiftr (Z.land x 240) 4 + 48) 48); auto.
    destruct (Z.eqb_spec (Z.land x 15 + 48) 48); auto.
    exfalso. unfold is_byte in H. lia.
Qed.
Lemma bcd_roundtrip ds n : digits ds -> (length ds <= 2 * n)%nat ->
  bcd_to_string (string_to_bcd_n (chars ds) n) = chars (dropz ds).
Proof.
  intros Hd Hl. rewrite bcd_to_string_dropzc by (apply string_to_bcd_n_bytes; auto).
  destruct (unpack_string_to_bcd_n ds n Hd Hl) as (k & -> & _).
  rewrite dropzc_chars, dropz_repeat0. reflexivity.
Qed.

(** Whatever six bytes decode to is below 10^12. *)
Lemma length_bcd_unpack l : length (bcd_unpack l) = (2 * length l)%nat.
Proof. induction l; cbn; lia. Qed.
Lemma length_dropzc s : (length (dropzc s) <= length s)%nat.
Proof. induction s; cbn; auto. destruct (a =? 48); cbn; lia. Qed.
Lemma parse_acc_inv s : forall a n, parse_acc a s = Some n -> exists ds, digits ds /\ s = chars ds /\ n = a * 10 ^ zlen ds + dval ds.
Proof.
  induction s; intros acc n H; cbn in H.
  - inversion H; subst. exists []. split; [constructor|]. split; auto. change (zlen (@nil Z)) with 0. cbn. lia.
  - destruct (is_digit_char a) eqn:E; [|discriminate]. destruct (_ <? _); [|discriminate].
    apply IHs in H. destruct H as (ds & Hd & -> & ->). exists (a - 48 :: ds).
    unfold is_digit_char in E. split; [constructor; auto; unfold is_digit; lia|].
    split; [cbn; f_equal; lia|]. rewrite dval_cons. zl. pose proof (zlen_nonneg ds).
    rewrite Z.pow_add_r by lia. change (10 ^ 1) with 10. ring.
Qed.
Lemma parse_uint_inv s n : parse_uint s = Ok n -> exists ds, digits ds /\ s = chars ds /\ n = dval ds /\ ds <> [].
Proof.
  unfold parse_uint. destruct s; [discriminate|]. intros H.
  destruct (parse_acc 0 (z :: s)) eqn:E; inversion H; subst.
  apply parse_acc_inv in E. destruct E as (ds & Hd & Hs & ->). exists ds. split; auto. split; auto.
  split; [lia|]. intros ->. discriminate.
Qed.
Lemma bcd_parse_bound data n : bytes_ok data -> parse_uint (bcd_to_string data) = Ok n ->
  0 <= n < 10 ^ (2 * zlen data).
Proof.
  intros Hb H. apply parse_uint_inv in H. destruct H as (ds & Hd & Hs & -> & _).
  pose proof (dval_bound ds Hd). rewrite bcd_to_string_dropzc in Hs by auto.
  assert (zlen ds <= 2 * zlen data).
  { rewrite <- (zlen_chars ds), <- Hs. unfold zlen. pose proof (length_dropzc (bcd_unpack data)).
    rewrite length_bcd_unpack in H0. lia. }
  split; [lia|]. apply Z.lt_le_trans with (10 ^ zlen ds); [lia|]. apply Z.pow_le_mono_r; lia.
Qed.
