(** Positions, areas, CAN, compressed and key messages. *)
From Verif Require Import Base LibBase Bits LibBits Bcd LibBcd GoTime LibCalendar LibTime Decimal Env SpecGeo LibDec
  EntTerm EntPlat Registry SpecEntity LibEntity ProofRound.

(** ** Extra items *)
Lemma be32_w n : is_u32 n -> be32 (u8 (n / 16777216)) (u8 (n / 65536)) (u8 (n / 256)) (u8 n) = n.
Proof. intros. unfold be32, u8, is_u32 in *. lia. Qed.
Lemma be16_w n : is_u16 n -> be16 (u8 (n / 256)) (u8 n) = n.
Proof. intros. unfold be16, u8, is_u16 in *. lia. Qed.
Lemma extra_item v : extra_val_ok v ->
  extra_decode (extra_id v) (x_ser (new_extra v)) = Ok (v, zlen (x_ser (new_extra v))) /\
  zlen (x_ser (new_extra v)) <= 7.
Proof.
  destruct v; cbn [extra_val_ok]; intros H; unfold extra_decode; cbn [extra_id Z.eqb Pos.eqb new_extra x_ser].
  1,8,10: cbn; rewrite be32_w by auto; split; [reflexivity|lia].
  1,2,3,7: cbn; rewrite be16_w by auto; split; [reflexivity|lia].
  4,5: cbn; split; [reflexivity|lia].
  - destruct H as (Ht & [[-> ->]|(Ht0 & n & -> & Hn)]); [cbn; split; [reflexivity|lia]|].
    replace (typ =? 0) with false by lia. cbn [negb w_byte app w_u32 dec_x11].
    replace (typ =? 0) with false by lia. rewrite be32_w by auto. split; [reflexivity|cbn; lia].
  - destruct H as (? & ? & ?). cbn. rewrite be32_w by auto. split; [reflexivity|lia].
  - destruct H as (? & ? & ?). cbn. rewrite be32_w, be16_w by auto. split; [reflexivity|lia].
Qed.
Lemma dec_extras_enc xs : Forall wf_extra xs -> forall f, zlen (enc_extras xs) < Z.of_nat f ->
  dec_extras f (enc_extras xs) = Ok (concat (map sent_extra xs)).
Proof.
  induction 1 as [|x xs Hx Hxs IH]; intros f Hf.
  - destruct f; [cbn in Hf; lia|reflexivity].
  - unfold enc_extras in *. cbn [map concat] in *. destruct x as [x|]; [|apply IH; auto].
    destruct x as [v s]. destruct Hx as [Hv Hx]. cbn [x_val] in *. apply (f_equal x_ser) in Hx. cbn [x_ser] in Hx.
    destruct (extra_item _ Hv) as [Hd Hl]. rewrite <- Hx in Hd, Hl. clear Hx.
    destruct f as [|f]; [pose proof (zlen_nonneg (enc_extra (Some (Extra v s)) ++ concat (map enc_extra xs))); lia|].
    cbn [enc_extra app dec_extras sent_extra x_val x_ser]. cbn [enc_extra app x_ser x_val] in Hf.
    pose proof (zlen_nonneg s). rewrite (u8_len _ 7) by lia.
    replace (zlen (s ++ _) <? zlen s) with false by (symmetry; apply Z.ltb_ge; sizes; lia).
    rewrite zlen_to_nat, firstn_exact, skipn_exact, Hd. rewrite Z.eqb_refl. cbn [negb].
    rewrite IH. { reflexivity. } zl_in Hf. lia.
Qed.
Lemma extras_len xs : zlen (enc_extras xs) = fold_right Z.add 0 (map extra_size xs).
Proof.
  unfold enc_extras. induction xs as [|x xs IH]; [reflexivity|]. cbn [map concat fold_right]. zl. rewrite IH.
  f_equal. destruct x as [x|]; [cbn [enc_extra extra_size]; zl; lia|reflexivity].
Qed.

(** ** 0x0200 *)
Lemma enc_0200_split env e : enc_0200 env e = concat (enc_0200_fixed env e) ++ enc_extras (p_extras e).
Proof. unfold enc_0200. rewrite concat_app. cbn [concat]. rewrite app_nil_r. auto. Qed.
Lemma len_0200_fixed env e : zlen (concat (enc_0200_fixed env e)) = 28.
Proof. unfold enc_0200_fixed. sizes. lia. Qed.
Lemma len_0200 env e : zlen (enc_0200 env e) = 28 + zlen (enc_extras (p_extras e)).
Proof. rewrite enc_0200_split, zlen_app, len_0200_fixed. auto. Qed.
Lemma r_0200_fixed_w env e r : wf_0200 env e ->
  r_0200_fixed env (concat (enc_0200_fixed env e) ++ r) = Ok (sent_0200 env (bare e), r).
Proof.
  intros (H1 & H2 & H3 & H4 & H5 & H6 & H7 & H8 & H9 & H10 & _).
  destruct (loc_status_ok e H2 H3 H4) as (S1 & S2 & S3).
  assert (U1 : is_u32 (abs_u32 env (micro (p_lat e)))) by (rewrite abs_u32_ok by auto; apply coord_u32; auto).
  assert (U2 : is_u32 (abs_u32 env (micro (p_lng e)))) by (rewrite abs_u32_ok by auto; apply coord_u32; auto).
  unfold r_0200_fixed, enc_0200_fixed. flat. do 4 rstep. rewrite S2, S3.
  erewrite rbind_ok by (apply rlift_ok, geo_sent; auto). cbv beta iota. do 4 rstep.
  unfold sent_0200, bare, rret, loc_south, loc_west. cbn [p_alarm p_status p_lat p_lng p_alt p_speed p_dir p_time p_extras map concat].
  rewrite loc_status_eq by auto. reflexivity.
Qed.
Lemma rt_0200 env e : wf_0200 env e -> dec_0200 env (enc_0200 env e) = Ok (sent_0200 env e, 28).
Proof.
  intros H. unfold dec_0200. rewrite len_0200. pose proof (zlen_nonneg (enc_extras (p_extras e))) as Hn.
  replace (_ <? 28) with false by lia. rewrite enc_0200_split. rewrite r_0200_fixed_w by auto.
  rewrite dec_extras_enc; [|apply H|unfold zlen; lia]. cbn [bind]. do 2 f_equal; lia.
Qed.
Lemma r_0200_of_w env e r : wf_0200 env e -> r_0200_of env (enc_0200 env e) r = Ok (sent_0200 env e, r).
Proof. intros. unfold r_0200_of. apply rlift_ok. rewrite rt_0200 by auto. reflexivity. Qed.
Lemma rt_0201 env e : is_u16 (a0201_serial e) -> wf_0200 env (a0201_loc e) ->
  dec_0201 env (enc_0201 env e) = Ok (T0201 (a0201_serial e) (sent_0200 env (a0201_loc e)), 30).
Proof.
  intros H1 H2. unfold dec_0201, enc_0201. cbn [concat]. rewrite app_nil_r.
  pose proof (len_0200 env (a0201_loc e)). pose proof (zlen_nonneg (enc_extras (p_extras (a0201_loc e)))).
  replace (_ <=? 3) with false by (symmetry; apply Z.leb_gt; sizes; lia).
  rewrite r_u16_w by auto. rewrite rt_0200 by auto. cbn [bind]. do 2 f_equal. sizes. lia.
Qed.
Lemma rt_0704 env e : wf env (E0704 e) ->
  dec_0704 env (enc_0704 env e) = Ok (T0704 (a0704_type e) (map (sent_0200 env) (a0704_items e)), zlen (enc_0704 env e)).
Proof.
  intros (? & Hn & Hl). unfold dec_0704, enc_0704. cbn [concat]. chk. rc.
  rewrite (u16_len _ 65535) by lia. pose proof (u16_len_ok _ 65535 ltac:(lia) Hn). do 2 rstep.
  erewrite rbind_ok; [fin|]. eapply r_list_n; [|exact Hl|auto].
  intros p r (Hp & Hs). assert (L : zlen (enc_0200 env p) <= 65535) by (rewrite len_0200, extras_len; lia).
  unfold r_0704_item, enc_0704_item. rewrite (u16_len _ 65535) by lia. pose proof (u16_len_ok _ 65535 ltac:(lia) L).
  rewrite <- app_assoc. rstep. erewrite rbind_ok by (apply r_bytes_app; auto). apply r_0200_of_w; auto.
Qed.

(** ** 0x0801, 0x0802 *)
Lemma with_extras_bare e : with_extras e [] = bare e. Proof. reflexivity. Qed.
Lemma len_bare env e : zlen (enc_0200 env (bare e)) = 28.
Proof. rewrite len_0200. reflexivity. Qed.
Lemma len_0800 e : zlen (enc_0800 e) = 8. Proof. reflexivity. Qed.
Lemma rt_0801 env e : wf env (E0801 e) -> exists d, enc_0801 env e = Ok d /\
  (do x <- dec_0801_packet env d ; Ok (E0801 x, zlen d)) = Ok (sent env (E0801 e), zlen d).
Proof.
  intros (Hh & Hl & Hp). unfold enc_0801. rewrite with_extras_bare.
  set (head := concat [enc_0800 (a0801_head e); enc_0200 env (bare (a0801_loc e))]).
  set (pk := match a0801_packet e with Some r => rdr_data r | None => [] end).
  exists (head ++ pk). split.
  - unfold pk. destruct (a0801_packet e) as [r|]; [|rewrite app_nil_r; auto]. destruct Hp as [_ ->]. auto.
  - assert (Lh : zlen head = 36) by (unfold head; cbn [concat]; zl; rewrite len_0800, len_bare; reflexivity).
    unfold dec_0801_packet, dec_0801. pose proof (zlen_nonneg pk).
    replace (zlen (head ++ pk) <? 36) with false by (symmetry; apply Z.ltb_ge; zl; lia).
    assert (R : (rd h <- r_0800 ; rd buf <- r_bytes 28 ; rd loc <- r_0200_of env buf ; rret (T0801 h loc None)) (head ++ pk) =
              Ok (T0801 (a0801_head e) (sent_0200 env (bare (a0801_loc e))) None, pk)).
    { unfold head. flat. erewrite rbind_ok by (apply rt_0800_r; auto). rewrite ?app_nil_l.
      erewrite rbind_ok by (apply r_bytes_app; apply len_bare). erewrite rbind_ok by (apply r_0200_of_w; auto). reflexivity. }
    unfold run_count. rewrite R. cbn [bind].
    replace (zlen (head ++ pk) - zlen pk) with 36 by (zl; lia).
    replace ((36 <? 0) || (zlen (head ++ pk) <? 36)) with false by (zl; lia).
    cbn [bind a0801_head a0801_loc]. rewrite skipn_exact' by (unfold zlen in Lh; lia). reflexivity.
Qed.
Lemma rt_0802 env e : wf env (E0802 e) ->
  dec_0802 env (enc_0802 env e) = Ok (T0802 (a0802_serial e) (map (sent_0802_item env) (a0802_items e)), zlen (enc_0802 env e)).
Proof.
  intros (? & Hn & Hl). unfold dec_0802, enc_0802. cbn [concat]. chk. rc.
  rewrite (u16_len _ 65535) by lia. pose proof (u16_len_ok _ 65535 ltac:(lia) Hn). do 2 rstep.
  erewrite rbind_ok; [fin|]. eapply r_list_n; [|exact Hl|auto].
  intros i r (H1 & H2 & H3 & H4 & H5). unfold r_0802_item, enc_0802_item. flat. do 4 rstep. rewrite with_extras_bare.
  erewrite rbind_ok by (apply r_bytes_app, len_bare). erewrite rbind_ok by (apply r_0200_of_w; auto). reflexivity.
Qed.

(** ** 0x0702 *)
Lemma rt_0702 env e : wf env (E0702 e) -> exists d, enc_0702 env e = Ok d /\
  omap E0702 (dec_0702 env d) = Ok (sent env (E0702 e), zlen d).
Proof.
  intros (H1 & H2 & H3 & Hn & Hu & Hc & (Hz & Hm & Hy)).
  destruct (text_in_w env _ _ Hn) as (n & En & Ln & _ & _ & Rn & _).
  destruct (text_in_w env _ _ Hu) as (u & Eu & Lu & _ & _ & _ & Ru).
  destruct (text_in_w env _ _ Hc) as (c & Ec & Lc & _ & _ & Rc & _).
  unfold enc_0702. rewrite En, Eu, Ec. cbn [bind]. eexists. split; [reflexivity|].
  set (ex := string_to_bcd_n _ 4). assert (Lx : zlen ex = 4) by (unfold ex, zlen; rewrite string_to_bcd_n_length; auto).
  unfold dec_0702. cbn [concat].
  replace (zlen _ <? 34) with false by (symmetry; apply Z.ltb_ge; sizes; lia).
  rewrite !(u8_len _ 255) by lia.
  erewrite run_count_ok.
  2:{ do 4 rstep. erewrite rbind_ok by apply Rn. erewrite rbind_ok by (apply (Ru 20%nat); lia). rstep.
      erewrite rbind_ok by apply Rc. erewrite rbind_ok by (apply r_bytes_app; auto).
      erewrite rbind_ok.
      2:{ apply rlift_ok. unfold ex. rewrite Hz. apply date_roundtrip; auto.
          assert (A : days_from_civil 1000 1 1 = -354285) by reflexivity. assert (B : days_from_civil 10000 1 1 = 2932897) by reflexivity.
          apply year_range; rewrite ?A, ?B; lia. }
      reflexivity. }
  cbn [omap bind]. do 2 f_equal. cbn [sent]. do 3 f_equal. unfold time_sent. f_equal. lia.
Qed.

(** ** 0x0705 *)
Definition clock_digits (n : Z) : list Z :=
  let h := n / ns_hour in let mi := n / (60 * 1000 * ns_ms) mod 60 in
  let s := n / (1000 * ns_ms) mod 60 in let ms := n / ns_ms mod 1000 in
  [h / 10; h mod 10; mi / 10; mi mod 10; s / 10; s mod 10; ms / 1000; ms / 100 mod 10; ms / 10 mod 10; ms mod 10].
Lemma clock_digits_ok n : 0 <= n < 24 * ns_hour -> digits (clock_digits n).
Proof. unfold ns_hour. intros. unfold clock_digits, ns_hour, ns_ms. repeat constructor; unfold is_digit; lia. Qed.
Lemma can_clock_chars d : can_clock d = chars (clock_digits (d mod (24 * ns_hour))).
Proof.
  unfold can_clock. cbv zeta. set (n := d mod _). assert (0 <= n < 24 * ns_hour) by (unfold n, ns_hour; lia). clearbody n.
  unfold clock_digits, ns_hour, ns_ms in *.
  rewrite !two_digits by lia. rewrite four_digits by lia. reflexivity.
Qed.
Lemma strip0_len l : (length (strip0 l) <= length l)%nat.
Proof. induction l; cbn; auto. destruct (a =? 0); cbn; lia. Qed.
Lemma bcd_unpack_length l : length (bcd_unpack l) = (2 * length l)%nat.
Proof. induction l; cbn; auto. lia. Qed.
Lemma atoi_chars ds : digits ds -> ds <> [] -> zlen ds <= 4 -> atoi_or_zero (chars ds) = dval ds.
Proof.
  intros. unfold atoi_or_zero. pose proof (dval_bound ds H).
  assert (10 ^ zlen ds <= 10 ^ 4) by (apply Z.pow_le_mono_r; lia).
  change (10 ^ 4) with 10000 in *. rewrite parse_uint_chars; auto. lia.
Qed.
Lemma atoi2 x : 0 <= x < 100 -> atoi_or_zero [x / 10 + 48; x mod 10 + 48] = x.
Proof.
  intros. change [x / 10 + 48; x mod 10 + 48] with (chars [x / 10; x mod 10]).
  rewrite atoi_chars; [|repeat constructor; unfold is_digit; lia|discriminate|cbn; lia]. unfold dval. cbn [fold_left]. lia.
Qed.
Lemma atoi4 x : 0 <= x < 10000 ->
  atoi_or_zero [x / 1000 + 48; x / 100 mod 10 + 48; x / 10 mod 10 + 48; x mod 10 + 48] = x.
Proof.
  intros. change [x / 1000 + 48; x / 100 mod 10 + 48; x / 10 mod 10 + 48; x mod 10 + 48]
    with (chars [x / 1000; x / 100 mod 10; x / 10 mod 10; x mod 10]).
  rewrite atoi_chars; [|repeat constructor; unfold is_digit; lia|discriminate|cbn; lia]. unfold dval. cbn [fold_left]. lia.
Qed.
Lemma can_time_clock n : 0 <= n < 24 * ns_hour ->
  can_time (w_fixed (string_to_bcd (chars (clock_digits n))) 5) =
  if n <? ns_hour then Err ErrOther else Ok (n / ns_ms * ns_ms).
Proof.
  intros Hn. pose proof (clock_digits_ok n Hn) as Hd.
  assert (E : string_to_bcd (chars (clock_digits n)) = bcd_pack (chars (clock_digits n))) by reflexivity.
  rewrite E. set (p := bcd_pack (chars (clock_digits n))).
  assert (Lp : length p = 5%nat) by reflexivity.
  assert (Wp : w_fixed p 5 = p) by (rewrite w_fixed_pad by lia; rewrite Lp; apply app_nil_r).
  rewrite Wp. assert (Up : bcd_unpack p = chars (clock_digits n)) by (apply bcd_unpack_pack; auto).
  unfold can_time, bcd_to_string_pad. fold ns_hour.
  assert (Hp : exists t, p = (n / ns_hour / 10 * 16 + n / ns_hour mod 10) :: t).
  { eexists. unfold p, clock_digits. cbv zeta. cbn [chars map bcd_pack]. rewrite bcd_byte_digits by (unfold is_digit, ns_hour in *; lia). reflexivity. }
  destruct Hp as [t Hp].
  destruct (Z.ltb_spec n ns_hour) as [L|L].
  - (* hour 00: the first byte is stripped *)
    assert (n / ns_hour = 0) as H0 by (apply Z.div_small; lia). rewrite H0 in Hp. change (0 / 10 * 16 + 0 mod 10) with 0 in Hp.
    assert (Lt : length t = 4%nat) by (rewrite Hp in Lp; cbn in Lp; lia).
    rewrite Hp. cbn [strip0]. change (0 =? 0) with true. cbv iota.
    pose proof (strip0_len t). destruct (strip0 t) as [|b t'] eqn:Es; [reflexivity|].
    replace (zlen (bcd_unpack (b :: t')) =? 10) with false; [reflexivity|].
    unfold zlen. rewrite bcd_unpack_length. lia.
  - assert (H0 : 0 < n / ns_hour < 24).
    { unfold ns_hour in *. lia. }
    assert (St : strip0 p = p).
    { rewrite Hp. cbn [strip0]. replace (_ =? 0) with false by lia. auto. }
    rewrite St. destruct p as [|b0 p']; [discriminate|]. rewrite Up.
    assert (zlen (chars (clock_digits n)) = 10) as -> by reflexivity.
    cbn [Z.eqb Pos.eqb negb]. f_equal.
    unfold clock_digits. cbv zeta. clear - Hn.
    cbn [chars map firstn skipn].
    rewrite !atoi2, atoi4 by (unfold ns_hour, ns_ms in *; lia). unfold ns_hour, ns_ms in *. lia.
Qed.
Lemma clamp_mod d : ns_hour <= d < 24 * ns_hour -> clamp_0705 d mod (24 * ns_hour) = d.
Proof.
  unfold clamp_0705, ns_hour. intros. replace (_ <? d) with false by lia. apply Z.mod_small. lia.
Qed.
Lemma rt_0705 env e : wf env (E0705 e) -> dec_0705 (enc_0705 e) = Ok (e, zlen (enc_0705 e)).
Proof.
  intros (Ht & Hms & Hn & Hl). unfold dec_0705, enc_0705. cbn [concat]. chk. rc.
  rewrite (u16_len _ 65535) by lia. pose proof (u16_len_ok _ 65535 ltac:(lia) Hn). do 2 rstep.
  erewrite rbind_ok.
  2:{ apply rlift_ok. rewrite can_clock_chars, clamp_mod by auto. rewrite can_time_clock by (unfold ns_hour in *; lia).
      replace (_ <? _) with false by lia. reflexivity. }
  erewrite rbind_ok.
  2:{ apply (r_list_ids _ (fun c => can_id c ++ can_data c) wf_can); auto. intros c r (A & B & C & D). unfold r_can.
      rewrite <- app_assoc. do 2 rstep. destruct c; fin. }
  destruct e as [d items]. cbn [a0705_time a0705_items] in *. unfold rret. do 3 f_equal. unfold ns_ms in *. lia.
Qed.

(** ** 0x0901 *)
Lemma gz_loop_more cs c : gz_loop (map (fun x => (x, GzMore)) cs ++ [(c, GzEOF)]) = Ok (concat cs ++ c).
Proof.
  induction cs as [|x cs IH]; [reflexivity|]. cbn [map app gz_loop concat]. rewrite IH. cbn [bind]. rewrite app_assoc. auto.
Qed.
Lemma rt_0901 env e : wf env (E0901 e) -> dec_0901 env (enc_0901 env e) = Ok (e, zlen (enc_0901 env e)).
Proof.
  intros ((_ & cs & c & E & Hd) & Hn). unfold dec_0901, enc_0901. cbn [concat]. chk. rc.
  pose proof (zlen_nonneg (gz_enc env (a0901_data e))).
  assert (is_u32 (zlen (gz_enc env (a0901_data e)))) by (unfold is_u32; lia).
  rewrite u32_id by auto. rstep. erewrite rbind_ok by (apply r_bytes_app; auto).
  rewrite E. erewrite rbind_ok by (apply rlift_ok, gz_loop_more). rewrite Hd. destruct e; fin.
Qed.

(** ** 0x0A00 *)
Lemma be_bytes_len k n : length (be_bytes k n) = k.
Proof. revert n. induction k; intros; cbn; auto. rewrite app_length, IHk. cbn. lia. Qed.
Lemma be_bytes_ok k n : bytes_ok (be_bytes k n).
Proof.
  revert n. induction k; intros; cbn; [constructor|]. apply bytes_ok_app. split; auto. repeat constructor; unfold is_byte; lia.
Qed.
Lemma be_value_bytes k : forall n, 0 <= n < 256 ^ Z.of_nat k -> be_value (be_bytes k n) = n.
Proof.
  unfold be_value. induction k; intros n H; [cbn in *; lia|].
  cbn [be_bytes]. rewrite fold_left_app. cbn [fold_left]. rewrite IHk; [lia|].
  rewrite Nat2Z.inj_succ, Z.pow_succ_r in H by lia. lia.
Qed.
Lemma n_size_128 n : 2 ^ 1016 <= n < 2 ^ 1024 -> n_size n = 128.
Proof.
  intros H. unfold n_size. assert (0 < 2 ^ 1016) by (apply Z.pow_pos_nonneg; lia).
  replace (n =? 0) with false by lia. rewrite Z.abs_eq by lia.
  assert (1016 <= Z.log2 n < 1024).
  { split; [apply Z.log2_le_pow2; lia|apply Z.log2_lt_pow2; lia]. }
  lia.
Qed.
Lemma rt_0a00 e : wf_key e -> exists d, enc_0a00 e = Ok d /\ dec_0a00 d = Ok (e, zlen d).
Proof.
  destruct e as [[[x [n|]]|]]; unfold wf_key; cbn [a0a00_key]; try tauto. intros [Hx Hn].
  unfold enc_0a00. cbn [a0a00_key]. rewrite n_size_128 by auto. change (negb (128 =? 128)) with false. cbv iota.
  eexists. split; [reflexivity|]. unfold dec_0a00. chk. rc. cbn [concat]. rewrite u32_id by auto. do 2 rstep.
  change (Z.to_nat 128) with 128%nat.
  assert (W : w_fixed (be_bytes 128 (Z.abs n)) 128 = be_bytes 128 (Z.abs n)).
  { rewrite w_fixed_pad; rewrite be_bytes_len; [|lia]. apply app_nil_r. }
  assert (0 < 2 ^ 1016) by (apply Z.pow_pos_nonneg; lia).
  assert (P : 256 ^ Z.of_nat 128 = 2 ^ 1024) by reflexivity.
  rewrite W, be_value_bytes; [|rewrite P; lia]. rewrite Z.abs_eq by lia. reflexivity.
Qed.
