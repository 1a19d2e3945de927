(** Exactness of the readers of times, of half-byte characters, of extra items, of compressed data. *)
From Verif Require Import Base LibBase Bits LibBits Bcd LibBcd GoTime LibCalendar LibTime Decimal Env SpecGeo LibDec
  EntTerm EntPlat Registry SpecEntity SpecRange SpecBody LibEntity LibSafe ProofRound ProofRound2 ProofSafe ProofBody3 SpecWire ProofWire ProofWire2 SpecRead ProofRead.

(** ** Times *)
Lemma num2 a b n : num_of 0 [a + 48; b + 48] = Some n -> is_digit a /\ is_digit b /\ n = a * 10 + b.
Proof.
  cbn [num_of]. unfold is_digit_char. destruct (_ && _) eqn:A; [|discriminate]. destruct ((48 <=? b + 48) && _) eqn:B; [|discriminate].
  intros E. injection E as <-. unfold is_digit. lia.
Qed.
Lemma num4 a b c d n : num_of 0 [a + 48; b + 48; c + 48; d + 48] = Some n ->
  is_digit a /\ is_digit b /\ is_digit c /\ is_digit d /\ n = ((a * 10 + b) * 10 + c) * 10 + d.
Proof.
  cbn [num_of]. unfold is_digit_char. repeat (match goal with |- (if ?x then _ else _) = _ -> _ => destruct x eqn:?; [|discriminate] end).
  intros E. injection E as <-. unfold is_digit. lia.
Qed.
Lemma digits_of2 a b : is_digit a -> is_digit b -> digits_of 2 (a * 10 + b) = [a; b].
Proof. unfold is_digit. intros. cbn [digits_of app]. repeat f_equal; lia. Qed.
Lemma digits_of4 a b c d : is_digit a -> is_digit b -> is_digit c -> is_digit d ->
  digits_of 4 (((a * 10 + b) * 10 + c) * 10 + d) = [a; b; c; d].
Proof. unfold is_digit. intros. cbn [digits_of app]. repeat f_equal; lia. Qed.
Lemma parse_all tz s t : parse_datetime tz s = Ok t -> exists y mo d h mi sec,
  num_of 0 (firstn 4 s) = Some y /\ num_of 0 (firstn 2 (skipn 4 s)) = Some mo /\ num_of 0 (firstn 2 (skipn 6 s)) = Some d /\
  num_of 0 (firstn 2 (skipn 8 s)) = Some h /\ num_of 0 (firstn 2 (skipn 10 s)) = Some mi /\ num_of 0 (firstn 2 (skipn 12 s)) = Some sec /\
  zlen s = 14 /\ 1 <= mo <= 12 /\ 1 <= d <= days_in mo y /\ 0 <= h < 24 /\ 0 <= mi < 60 /\ 0 <= sec < 60 /\
  t = GoTime (days_from_civil y mo d * 86400 + h * 3600 + mi * 60 + sec - tz) 0 tz.
Proof.
  unfold parse_datetime. destruct (Z.eqb_spec (zlen s) 14) as [L|]; cbn [negb]; [|discriminate].
  destruct (num_of 0 (firstn 4 s)) as [y|]; [|discriminate].
  destruct (num_of 0 (firstn 2 (skipn 4 s))) as [mo|]; [|discriminate].
  destruct (num_of 0 (firstn 2 (skipn 6 s))) as [d|]; [|discriminate].
  destruct (num_of 0 (firstn 2 (skipn 8 s))) as [h|] eqn:Eh; [|discriminate].
  destruct (num_of 0 (firstn 2 (skipn 10 s))) as [mi|] eqn:Em; [|discriminate].
  destruct (num_of 0 (firstn 2 (skipn 12 s))) as [sec|] eqn:Es; [|discriminate].
  destruct (_ && _) eqn:B; [|discriminate]. intros H. injection H as <-.
  pose proof (num_of_bound _ _ Eh). pose proof (num_of_bound _ _ Em). pose proof (num_of_bound _ _ Es).
  exists y, mo, d, h, mi, sec. repeat (apply andb_prop in B; destruct B as [B ?]). repeat split; auto; lia.
Qed.
Lemma dropzc_full s : length (dropzc s) = length s -> dropzc s = s.
Proof.
  destruct s as [|c s]; cbn; auto. destruct (c =? 48); auto. intros H. pose proof (length_dropzc s). lia.
Qed.
Definition hi (b : Z) : Z := b / 16.
Definition lo (b : Z) : Z := b mod 16.
Lemma hi_lo b : hi b * 16 + lo b = b. Proof. unfold hi, lo. lia. Qed.
Fixpoint halves (l : bytes) : list Z := match l with [] => [] | b :: t => hi b :: lo b :: halves t end.
Lemma unpack_halves l : bytes_ok l -> bcd_unpack l = map (fun n => n + 48) (halves l).
Proof.
  induction l as [|b l IH]; intros H; auto. apply bytes_ok_cons in H as [H1 H2]. cbn [bcd_unpack halves map].
  destruct (byte_nibbles b H1) as [-> ->]. rewrite IH by auto. reflexivity.
Qed.
Lemma pairs_halves l : pairs (halves l) = l.
Proof. induction l; cbn; auto. rewrite IHl, hi_lo. reflexivity. Qed.
Lemma halves_nibbles l : bytes_ok l -> nibbles (halves l).
Proof.
  induction l as [|b l IH]; intros H; [constructor|]. apply bytes_ok_cons in H as [H1 H2]. unfold is_byte in H1.
  constructor; [unfold hi; lia|]. constructor; [unfold lo; lia|]. apply IH; auto.
Qed.
Lemma halves_length l : length (halves l) = (2 * length l)%nat.
Proof. induction l; cbn; lia. Qed.
Lemma bcd_string l : bytes_ok l -> bcd_to_string l = dropzc (map (fun n => n + 48) (halves l)).
Proof. intros H. rewrite bcd_to_string_dropzc, unpack_halves by auto. reflexivity. Qed.

Lemma bcd_time_shows env b t : bytes_ok b -> from_bcd_time (tz_off env) b = Ok t -> shows (stamp env t) b.
Proof.
  unfold from_bcd_time. intros Hb. destruct (Z.eqb_spec (zlen b) 6) as [L|]; [|discriminate]. cbn [negb]. intros H.
  rewrite bcd_string in H by auto.
  destruct b as [|b1 [|b2 [|b3 [|b4 [|b5 [|b6 [|]]]]]]]; rewrite ?zlen_cons in L; try (exfalso; revert L; change (zlen (@nil Z)) with 0; lia).
  2: { pose proof (zlen_nonneg l). lia. }
  destruct (parse_all _ _ _ H) as (y & mo & d & h & mi & sec & Y & M & D & Hh & Mi & S & L14 & B1 & B2 & B3 & B4 & B5 & ->).
  cbn [halves map] in *.
  assert (F : dropzc (map (fun n => n + 48) [hi b1; lo b1; hi b2; lo b2; hi b3; lo b3; hi b4; lo b4; hi b5; lo b5; hi b6; lo b6]) =
    map (fun n => n + 48) [hi b1; lo b1; hi b2; lo b2; hi b3; lo b3; hi b4; lo b4; hi b5; lo b5; hi b6; lo b6]).
  { apply dropzc_full. cbn [map length]. rewrite !zlen_cons in L14. unfold zlen in L14. cbn [map] in L14. lia. }
  cbn [map] in F. rewrite F in *. clear F L14 H. cbn [firstn skipn] in *.
  change (num_of 0 [2 + 48; 0 + 48; hi b1 + 48; lo b1 + 48] = Some y) in Y.
  apply num4 in Y as (_ & _ & Y1 & Y2 & ->). apply num2 in M as (M1 & M2 & ->). apply num2 in D as (D1 & D2 & ->).
  apply num2 in Hh as (H1 & H2 & ->). apply num2 in Mi as (Mi1 & Mi2 & ->). apply num2 in S as (S1 & S2 & ->).
  unfold stamp. cbn [t_sec].
  set (y := ((2 * 10 + 0) * 10 + hi b1) * 10 + lo b1) in *. assert (Ey : y - 2000 = hi b1 * 10 + lo b1) by (unfold y; lia).
  assert (Yr : 2000 <= y < 2100) by (unfold y, is_digit in *; lia).
  replace (_ - tz_off env + tz_off env) with
    (day_number y (hi b2 * 10 + lo b2) (hi b3 * 10 + lo b3) * 86400 + (hi b4 * 10 + lo b4) * 3600 + (hi b5 * 10 + lo b5) * 60 + (hi b6 * 10 + lo b6)).
  2: { rewrite day_number_civil by auto. lia. }
  replace [b1; b2; b3; b4; b5; b6] with (pairs (digits_of 2 (y - 2000) ++ digits_of 2 (hi b2 * 10 + lo b2) ++ digits_of 2 (hi b3 * 10 + lo b3) ++
     digits_of 2 (hi b4 * 10 + lo b4) ++ digits_of 2 (hi b5 * 10 + lo b5) ++ digits_of 2 (hi b6 * 10 + lo b6))).
  - constructor; auto. apply is_date_eq. auto.
  - rewrite Ey, !digits_of2 by auto. cbn [app pairs]. rewrite !hi_lo. reflexivity.
Qed.
Lemma rd_time env N : reads env N (r_time env) (fun t => t) (fun t => [When t]) no no.
Proof.
  intros d [Hd _]. unfold r_time, rbind. split.
  - intros a r E. destruct (r_bytes 6 d) as [[b l]|?|] eqn:E1; try discriminate. apply r_bytes_inv in E1 as (-> & L).
    apply rlift_inv in E as (E & ->). apply bytes_ok_app in Hd as [Hd _]. split; [exact Logic.I|].
    apply takes_one. exists b. split; auto. constructor; [eapply bcd_time_ok; eauto|eapply bcd_time_shows; eauto].
  - intros a r _ T. apply takes_one in T as (b & -> & H). inversion H; subst. match goal with K : dec_time _ _ |- _ => destruct K as [K1 K2] end.
    rewrite (shows_unique _ _ _ ltac:(eassumption) (shows_time env a K1)). exists a. split; auto.
    rewrite K2 at 2. apply (r_time_w env a r K1).
Qed.

(** ** Dates *)
Lemma bcd_date_shows env b t : bytes_ok b -> zlen b = 4 -> parse_datetime (tz_off env) (bcd_to_string b ++ repeat 48 6) = Ok t ->
  date_ok env t /\ t_nsec t = 0 /\ shows (Day (t_sec t + tz_off env)) b.
Proof.
  intros Hb L H. rewrite bcd_string in H by auto.
  destruct b as [|b1 [|b2 [|b3 [|b4 [|]]]]]; rewrite ?zlen_cons in L; try (exfalso; revert L; change (zlen (@nil Z)) with 0; lia).
  2: { pose proof (zlen_nonneg l). lia. }
  destruct (parse_all _ _ _ H) as (y & mo & d & h & mi & sec & Y & M & D & Hh & Mi & S & L14 & B1 & B2 & B3 & B4 & B5 & ->).
  cbn [halves map] in *.
  assert (F : dropzc (map (fun n => n + 48) [hi b1; lo b1; hi b2; lo b2; hi b3; lo b3; hi b4; lo b4]) =
    map (fun n => n + 48) [hi b1; lo b1; hi b2; lo b2; hi b3; lo b3; hi b4; lo b4]).
  { apply dropzc_full. cbn [map length]. rewrite zlen_app in L14. change (zlen (repeat 48 6)) with 6 in L14. unfold zlen in L14. cbn [map] in L14. lia. }
  cbn [map] in F. pose proof (dropzc_head _ _ _ F) as NZ. rewrite F in *. clear F L14 H. cbn [app repeat firstn skipn] in *.
  apply num4 in Y as (Y1 & Y2 & Y3 & Y4 & ->). apply num2 in M as (M1 & M2 & ->). apply num2 in D as (D1 & D2 & ->).
  cbn in Hh, Mi, S. injection Hh as <-. injection Mi as <-. injection S as <-. cbn [t_sec t_nsec].
  set (y := ((hi b1 * 10 + lo b1) * 10 + hi b2) * 10 + lo b2) in *.
  assert (Yr : 1000 <= y < 10000) by (unfold y, is_digit in *; lia).
  set (mo := hi b3 * 10 + lo b3) in *. set (d := hi b4 * 10 + lo b4) in *.
  pose proof (year_days y mo d 1000 B1 B2 ltac:(lia)) as D3. pose proof (year_days_u y mo d 10000 B1 B2 ltac:(lia)) as D4.
  assert (A : days_from_civil 1000 1 1 = -354285) by reflexivity. assert (B : days_from_civil 10000 1 1 = 2932897) by reflexivity.
  split; [|split; [reflexivity|]].
  - unfold date_ok. cbn [t_sec t_zone]. lia.
  - replace (_ - tz_off env + tz_off env) with (day_number y mo d * 86400) by (rewrite day_number_civil by auto; lia).
    replace [b1; b2; b3; b4] with (pairs (digits_of 4 y ++ digits_of 2 mo ++ digits_of 2 d)).
    + constructor; [lia|]. apply is_date_eq. auto.
    + unfold y, mo, d. rewrite digits_of4, !digits_of2 by auto. cbn [app pairs]. rewrite !hi_lo. reflexivity.
Qed.
Definition r_date (env : Env) : R gotime := rd b <- r_bytes 4 ; rlift (parse_datetime (tz_off env) (bcd_to_string b ++ repeat 48 6)).
Lemma date_read env t b : date_ok env t -> t_nsec t = 0 -> shows (Day (t_sec t + tz_off env)) b ->
  zlen b = 4 /\ parse_datetime (tz_off env) (bcd_to_string b ++ repeat 48 6) = Ok t.
Proof.
  intros H Hn S. rewrite (shows_unique _ _ _ S (shows_day env t H)). destruct H as (Hz & Hm & H).
  split; [unfold zlen; rewrite string_to_bcd_n_length; reflexivity|].
  rewrite Hz, date_roundtrip; auto.
  - destruct t as [s n z]. cbn [t_sec t_nsec t_zone] in *. subst. do 2 f_equal. lia.
  - assert (A : days_from_civil 1000 1 1 = -354285) by reflexivity. assert (B : days_from_civil 10000 1 1 = 2932897) by reflexivity.
    apply year_range; rewrite ?A, ?B; lia.
Qed.
Lemma rd_date env N : reads env N (r_date env) (fun t => t) (fun t => [Upto t]) no no.
Proof.
  intros d [Hd _]. unfold r_date, rbind. split.
  - intros a r E. destruct (r_bytes 4 d) as [[b l]|?|] eqn:E1; try discriminate. apply r_bytes_inv in E1 as (-> & L).
    apply rlift_inv in E as (E & ->). apply bytes_ok_app in Hd as [Hd _]. split; [exact Logic.I|].
    apply takes_one. exists b. split; auto. destruct (bcd_date_shows env b a Hd L E) as (H1 & H2 & H3). constructor; auto.
  - intros a r _ T. apply takes_one in T as (b & -> & H). inversion H; subst.
    destruct (date_read env a b) as (L & E); auto. rewrite r_bytes_app by auto. exists a. split; auto. apply rlift_inv. auto.
Qed.

(** ** Half-byte characters *)
Lemma halves_pairs l : Nat.even (length l) = true -> nibbles l -> halves (pairs l) = l.
Proof.
  revert l. apply (even_ind (fun l => nibbles l -> halves (pairs l) = l)); [reflexivity|].
  intros h l t IH H. inversion H as [|? ? Hh H']; subst. inversion H' as [|? ? Hl Ht]; subst.
  cbn [pairs halves]. rewrite IH by auto. unfold hi, lo. repeat f_equal; lia.
Qed.
Lemma pairs_bytes l : Nat.even (length l) = true -> nibbles l -> bytes_ok (pairs l).
Proof.
  revert l. apply (even_ind (fun l => nibbles l -> bytes_ok (pairs l))); [constructor|].
  intros h l t IH H. inversion H as [|? ? Hh H']; subst. inversion H' as [|? ? Hl Ht]; subst.
  cbn [pairs]. constructor; [unfold is_byte; lia|]. apply IH; auto.
Qed.
Lemma pairs_length l : Nat.even (length l) = true -> (2 * length (pairs l) = length l)%nat.
Proof.
  revert l. apply (even_ind (fun l => (2 * length (pairs l) = length l)%nat)); [reflexivity|]. intros h l t IH. cbn [pairs length]. lia.
Qed.
Lemma drop_zeros l : exists k ns, l = repeat 0 k ++ ns /\ (forall t, ns <> 0 :: t).
Proof.
  induction l as [|x l IH].
  - exists 0%nat, []. split; auto. discriminate.
  - destruct (Z.eq_dec x 0) as [->|Hx].
    + destruct IH as (k & ns & -> & H). exists (S k), ns. auto.
    + exists 0%nat, (x :: l). split; auto. intros t E. congruence.
Qed.
Lemma dropzc_zeros k ns : (forall t, ns <> 0 :: t) -> dropzc (map (fun n => n + 48) (repeat 0 k ++ ns)) = map (fun n => n + 48) ns.
Proof.
  intros H. induction k as [|k IH]; cbn [repeat app map dropzc]; auto.
  destruct ns as [|x ns]; auto. cbn [map dropzc]. destruct (Z.eqb_spec (x + 48) 48); auto. exfalso. apply (H ns). f_equal. lia.
Qed.
Lemma rd_nib env N : reads env N (r_bytes 10) bcd_to_string (fun s => [Nib s]) no no.
Proof.
  intros d [Hd _]. split.
  - intros b r E. apply r_bytes_inv in E as (-> & L). apply bytes_ok_app in Hd as [Hd _]. split; [exact Logic.I|].
    apply takes_one. exists b. split; auto. rewrite bcd_string by auto.
    destruct (drop_zeros (halves b)) as (k & ns & E & H). rewrite E, dropzc_zeros by auto.
    rewrite <- (pairs_halves b), E. pose proof (halves_nibbles b Hd) as K. pose proof (halves_length b) as Lh. rewrite E in *.
    constructor; auto.
    + rewrite app_length, repeat_length in Lh. unfold zlen in L. lia.
    + apply Forall_app in K. tauto.
  - intros s r _ T. apply takes_one in T as (b & -> & H). inversion H as [| | | | | | |k ns d Hl Hn Hz E1 E2 E3| | | | | | | | | | | | | |]; subst.
    assert (Ev : length (repeat 0 k ++ ns) = 20%nat) by (rewrite app_length, repeat_length; auto).
    assert (Nn : nibbles (repeat 0 k ++ ns)).
    { apply Forall_app. split; auto. apply Forall_forall. intros x Hx. apply repeat_spec in Hx. lia. }
    assert (Ee : Nat.even (length (repeat 0 k ++ ns)) = true) by (rewrite Ev; reflexivity).
    exists (pairs (repeat 0 k ++ ns)). split.
    + apply r_bytes_app. pose proof (pairs_length _ Ee). unfold zlen. lia.
    + rewrite bcd_string by (apply pairs_bytes; auto). rewrite halves_pairs by auto. apply dropzc_zeros; auto.
Qed.

(** ** CAN time *)
Lemma strip0_head b l : b <> 0 -> strip0 (b :: l) = b :: l.
Proof. intros H. cbn. destruct (Z.eqb_spec b 0); congruence. Qed.
Lemma strip0_length l : (length (strip0 l) <= length l)%nat.
Proof. induction l; cbn; auto. destruct (a =? 0); cbn; lia. Qed.
Lemma atoi2 a b : 0 <= a < 16 -> 0 <= b < 16 -> atoi_or_zero [a + 48; b + 48] = dec_value [a; b].
Proof.
  intros Ha Hb. unfold atoi_or_zero, parse_uint, dec_value. cbn [parse_acc forallb fold_left].
  unfold is_digit_char. destruct (Z.leb_spec a 9).
  - replace ((48 <=? a + 48) && (a + 48 <=? 57)) with true by lia. replace (_ <? 18446744073709551616) with true by lia.
    destruct (Z.leb_spec b 9).
    + replace ((48 <=? b + 48) && (b + 48 <=? 57)) with true by lia. replace (_ <? 18446744073709551616) with true by lia. cbn [andb]. lia.
    + replace ((48 <=? b + 48) && (b + 48 <=? 57)) with false by lia. reflexivity.
  - replace ((48 <=? a + 48) && (a + 48 <=? 57)) with false by lia. reflexivity.
Qed.
Lemma atoi4 a b c d : 0 <= a < 16 -> 0 <= b < 16 -> 0 <= c < 16 -> 0 <= d < 16 -> atoi_or_zero [a + 48; b + 48; c + 48; d + 48] = dec_value [a; b; c; d].
Proof.
  intros Ha Hb Hc Hd. unfold atoi_or_zero, parse_uint, dec_value. cbn [parse_acc forallb fold_left].
  unfold is_digit_char.
  destruct (Z.leb_spec a 9); [|replace ((48 <=? a + 48) && (a + 48 <=? 57)) with false by lia; reflexivity].
  replace ((48 <=? a + 48) && (a + 48 <=? 57)) with true by lia. replace (_ <? 18446744073709551616) with true by lia.
  destruct (Z.leb_spec b 9); [|replace ((48 <=? b + 48) && (b + 48 <=? 57)) with false by lia; reflexivity].
  replace ((48 <=? b + 48) && (b + 48 <=? 57)) with true by lia. replace (_ <? 18446744073709551616) with true by lia.
  destruct (Z.leb_spec c 9); [|replace ((48 <=? c + 48) && (c + 48 <=? 57)) with false by lia; reflexivity].
  replace ((48 <=? c + 48) && (c + 48 <=? 57)) with true by lia. replace (_ <? 18446744073709551616) with true by lia.
  destruct (Z.leb_spec d 9); [|replace ((48 <=? d + 48) && (d + 48 <=? 57)) with false by lia; reflexivity].
  replace ((48 <=? d + 48) && (d + 48 <=? 57)) with true by lia. replace (_ <? 18446744073709551616) with true by lia. cbn [andb]. lia.
Qed.
Lemma can_time_eq h1 h2 m1 m2 s1 s2 f1 f2 f3 f4 : nibbles [h1; h2; m1; m2; s1; s2; f1; f2; f3; f4] -> h1 * 16 + h2 <> 0 ->
  can_time (pairs [h1; h2; m1; m2; s1; s2; f1; f2; f3; f4]) =
  Ok (dec_value [h1; h2] * 3600000000000 + dec_value [m1; m2] * 60000000000 +
      dec_value [s1; s2] * 1000000000 + dec_value [f1; f2; f3; f4] * 1000000).
Proof.
  intros Hn Hz. assert (Ee : Nat.even (length [h1; h2; m1; m2; s1; s2; f1; f2; f3; f4]) = true) by reflexivity.
  pose proof (pairs_bytes _ Ee Hn) as Hb. pose proof (unpack_halves _ Hb) as U. rewrite halves_pairs in U by auto.
  unfold can_time, bcd_to_string_pad. cbn [pairs] in *. rewrite strip0_head by auto. rewrite U. cbn [map].
  change (negb (zlen _ =? 10)) with false. cbv iota. cbn [firstn skipn].
  unfold nibbles in Hn. rewrite Forall_forall in Hn. cbn [In] in Hn.
  rewrite !atoi2, atoi4 by (apply Hn; tauto). unfold ns_hour, ns_ms. reflexivity.
Qed.
Definition r_clock : R Z := rd buf <- r_bytes 5 ; rlift (can_time buf).
Lemma rd_clock env N : reads env N r_clock (fun t => t) (fun t => [Clock t]) no no.
Proof.
  intros d [Hd _]. unfold r_clock, rbind. split.
  - intros a r E. destruct (r_bytes 5 d) as [[b l]|?|] eqn:E1; try discriminate. apply r_bytes_inv in E1 as (-> & L).
    apply rlift_inv in E as (E & ->). apply bytes_ok_app in Hd as [Hd _]. split; [exact Logic.I|]. apply takes_one. exists b. split; auto.
    destruct b as [|b1 [|b2 [|b3 [|b4 [|b5 [|]]]]]]; rewrite ?zlen_cons in L; try (exfalso; revert L; change (zlen (@nil Z)) with 0; lia).
    2: { pose proof (zlen_nonneg l0). lia. }
    assert (b1 <> 0).
    { intros ->. unfold can_time, bcd_to_string_pad in E. change (strip0 (0 :: ?l)) with (strip0 l) in E.
      pose proof (strip0_length [b2; b3; b4; b5]) as Ls. cbn [length] in Ls. change (strip0 [0; b2; b3; b4; b5]) with (strip0 [b2; b3; b4; b5]) in E.
      destruct (strip0 [b2; b3; b4; b5]) as [|x t]; [discriminate|]. cbv zeta in E.
      destruct (Z.eqb_spec (zlen (bcd_unpack (x :: t))) 10) as [E10|]; [|discriminate]. unfold zlen in E10. rewrite length_bcd_unpack in E10. cbn [length] in E10, Ls. lia. }
    pose proof (halves_nibbles _ Hd) as K. pose proof (pairs_halves [b1; b2; b3; b4; b5]) as Ep. cbn [halves] in K, Ep.
    rewrite <- Ep in E |- *. rewrite can_time_eq in E by (auto; rewrite hi_lo; auto). injection E as <-. constructor; auto. rewrite hi_lo. auto.
  - intros a r _ T. apply takes_one in T as (b & -> & H). inversion H; subst. eexists. split; [|reflexivity].
    rewrite r_bytes_app by reflexivity. apply rlift_inv. split; auto. apply can_time_eq; auto.
Qed.

(** ** Extra items *)
Lemma item_known v : extra_val_ok v -> on_wire (extra_layout v) (item_wire (Known v)).
Proof. intros H. rewrite <- made_wire by auto. apply (ow_extra (Some (new_extra v))). split; auto. Qed.
Lemma on_skipped id d b : on_wire [Num 1 id; Num 1 (zlen d); Raw d] b -> is_byte id /\ zlen d <= 255 /\ b = id :: zlen d :: d.
Proof.
  intros H. inversion H as [|? ? b1 r1 S1 H1]; subst. inversion H1 as [|? ? b2 r2 S2 H2]; subst. inversion H2 as [|? ? b3 r3 S3 H3]; subst. inversion H3; subst.
  inversion S1; subst. inversion S2; subst. inversion S3; subst. destruct b1 as [|x [|]]; try discriminate. destruct b2 as [|y [|]]; try discriminate.
  repeat match goal with K : bytes_ok [_] |- _ => apply bytes_ok_cons in K as [K _] end. cbn [value] in *. change (zlen (@nil Z)) with 0 in *. change (256 ^ 0) with 1 in *.
  unfold is_byte in *. rewrite app_nil_r. cbn [app]. split; [lia|]. split; [lia|]. f_equal; [lia|]. f_equal. lia.
Qed.
Lemma skipped_on id d : is_byte id -> zlen d <= 255 -> on_wire [Num 1 id; Num 1 (zlen d); Raw d] (id :: zlen d :: d).
Proof.
  intros H L. change (id :: zlen d :: d) with (w_byte id ++ (w_byte (zlen d) ++ d)). apply OwCons; [apply shows_1; auto|].
  apply OwCons; [apply shows_1; pose proof (zlen_nonneg d); unfold is_byte; lia|]. apply ow_one. constructor.
Qed.
Lemma items_iff vs b : bytes_ok b -> (items vs b <-> exists l tail, Forall item_ok l /\ zlen tail <= 1 /\ b = concat (map item_wire l) ++ tail /\ vs = known_values l).
Proof.
  intros Hb. split.
  - intros H. revert Hb. induction H as [tail Ht|v vs b r Hv Hw H IH|id d vs b r Hk Hw H IH]; intros Hb.
    + exists [], tail. repeat split; auto.
    + apply bytes_ok_app in Hb as [_ Hr]. destruct (IH Hr) as (l & tail & H1 & H2 & -> & ->).
      exists (Known v :: l), tail. repeat split; auto. cbn [map concat]. rewrite (on_wire_unique _ _ _ Hw (item_known v Hv)), app_assoc. reflexivity.
    + apply bytes_ok_app in Hb as [Hd Hr]. destruct (IH Hr) as (l & tail & H1 & H2 & -> & ->). destruct (on_skipped _ _ _ Hw) as (K1 & K2 & ->).
      apply bytes_ok_cons in Hd as [_ Hd]. apply bytes_ok_cons in Hd as [_ Hd].
      exists (Unknown id d :: l), tail. split; [constructor; auto; repeat split; auto; apply K1|]. split; auto. split; auto. cbn [map concat item_wire]. rewrite <- app_assoc. reflexivity.
  - intros (l & tail & H1 & H2 & -> & ->). clear Hb. induction H1 as [|x l Hx Hl IH]; cbn [map concat known_values].
    + constructor. auto.
    + rewrite <- app_assoc. destruct x as [v|id d]; cbn [item_ok] in Hx.
      * apply ItKept; auto. apply item_known. auto.
      * destruct Hx as (A & B & C & D). apply (ItSkipped id d); auto. apply skipped_on; auto.
Qed.
Lemma extras_iff env f buf xs : bytes_ok buf -> (length buf < f)%nat -> (dec_extras f buf = Ok xs <-> holds env (Items xs) buf []).
Proof.
  intros Hb Hf. split.
  - intros H. destruct (extras_inv f buf xs Hb H) as (l & tail & H1 & H2 & H3 & ->). constructor. apply items_iff; auto. exists l, tail. auto.
  - intros H. inversion H; subst. match goal with K : items _ _ |- _ => apply items_iff in K as (l & tail & H1 & H2 & -> & ->); auto end.
    apply dec_items; auto. unfold zlen. lia.
Qed.

(** ** Compressed data *)
Lemma gz_inv steps d : gz_loop steps = Ok d -> exists cs c st rest, steps = gz_stream cs c st rest /\ st <> GzMore /\ d = concat cs ++ match st with GzEOF => c | _ => [] end.
Proof.
  revert d. induction steps as [|[chunk st] t IH]; intros d H; [discriminate|]. cbn [gz_loop] in H. destruct st.
  - destruct (gz_loop t) as [x|?|] eqn:E; try discriminate. cbn [bind] in H. injection H as <-.
    destruct (IH x eq_refl) as (cs & c & st & rest & -> & H1 & ->). exists (chunk :: cs), c, st, rest. split; auto. split; auto. cbn [concat]. rewrite app_assoc. auto.
  - injection H as <-. exists [], chunk, GzEOF, t. split; auto. split; [discriminate|auto].
  - injection H as <-. exists [], chunk, GzErr, t. split; auto. split; [discriminate|auto].
Qed.
Definition unzip (env : Env) (z : bytes) : res bytes := match gz_dec env z with None => Err ErrGzip | Some steps => gz_loop steps end.
Lemma unzip_iff env z d : unzip env z = Ok d <-> is_unzipped env z d.
Proof.
  unfold unzip, is_unzipped. split.
  - destruct (gz_dec env z) as [steps|]; [|discriminate]. intros H. destruct (gz_inv _ _ H) as (cs & c & st & rest & -> & H1 & H2). exists cs, c, st, rest. auto.
  - intros (cs & c & st & rest & -> & H1 & ->). apply gz_loop_stream. auto.
Qed.
Definition r_zip (env : Env) : R bytes := rd size <- r_u32 ; rd z <- r_bytes size ; rlift (unzip env z).
Lemma rd_zip env N : reads env N (r_zip env) (fun d => d) (fun d => [Zip d]) no no.
Proof.
  intros d Hd. unfold r_zip, rbind. destruct (rd_u32 env N d Hd) as [F B']. split.
  - intros a r E. destruct (r_u32 d) as [[n l]|?|] eqn:E1; try discriminate. destruct (F n l eq_refl) as [_ T].
    apply takes_one in T as (c & -> & H). apply holds_num in H as (Hl & Hb & <-).
    destruct (r_bytes (value c) l) as [[z m]|?|] eqn:E2; try discriminate. apply r_bytes_inv in E2 as (-> & L).
    apply rlift_inv in E as (E & ->). apply unzip_iff in E. split; [exact Logic.I|]. apply takes_one. exists (c ++ z). rewrite app_assoc. split; auto. constructor; auto.
  - intros a r _ T. apply takes_one in T as (b & -> & H). inversion H; subst.
    destruct (B' (value c) (z ++ r) Logic.I) as (n & E & En). { apply takes_one. exists c. rewrite app_assoc. split; auto. apply holds_num. auto. }
    rewrite E. subst n. exists a. split; auto. rewrite r_bytes_app by auto. apply rlift_inv. split; auto. apply unzip_iff; auto.
Qed.
