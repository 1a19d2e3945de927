(** BCD times. *)
From Verif Require Import Base LibBase Bcd LibBcd GoTime LibCalendar.

(** ** Number formatting *)
Lemma dec_digits_small n : 0 <= n < 10 -> dec_digits n = [n].
Proof.
  intros. unfold dec_digits. pose proof (Z.log2_nonneg n).
  destruct (Z.to_nat (Z.log2 n + 1)) eqn:E; [lia|]. cbn. replace (n <? 10) with true by lia. reflexivity.
Qed.
Lemma format_pad_digits w n ds : digits ds -> length ds = w -> (0 < w)%nat -> dval ds = n -> format_pad w n = chars ds.
Proof.
  intros Hd Hl Hw Hv. pose proof (dval_bound ds Hd) as Hb. unfold format_pad.
  replace (n <? 0) with false by lia. f_equal.
  destruct (dec_digits_spec n) as (Hd' & Hv' & _); [lia|].
  assert (Hlen : zlen (dec_digits n) <= zlen ds) by (apply zlen_dec_digits; [lia|unfold zlen; lia|lia]).
  unfold pad_digits. apply digits_inj_len.
  - apply Forall_app. split; auto. apply Forall_forall. intros x Hx. apply repeat_spec in Hx. subst. unfold is_digit. lia.
  - auto.
  - unfold zlen in *. rewrite app_length, repeat_length. lia.
  - rewrite dval_repeat0. lia.
Qed.
Lemma two_digits n : 0 <= n < 100 -> format_pad 2 n = chars [n / 10; n mod 10].
Proof.
  intros. apply format_pad_digits; auto; [|unfold dval; cbn [fold_left]; lia].
  repeat constructor; unfold is_digit; lia.
Qed.
Lemma four_digits n : 0 <= n < 10000 ->
  format_pad 4 n = chars [n / 1000; n / 100 mod 10; n / 10 mod 10; n mod 10].
Proof.
  intros. apply format_pad_digits; auto; [|unfold dval; cbn [fold_left]; lia].
  repeat constructor; unfold is_digit; lia.
Qed.
Lemma num_of_chars ds : digits ds -> forall a, num_of a (chars ds) = Some (fold_left (fun a d => a * 10 + d) ds a).
Proof.
  induction 1; intros a; auto. cbn [chars map num_of fold_left]. unfold is_digit, is_digit_char in *.
  replace (_ && _) with true by lia. replace (x + 48 - 48) with x by lia. apply IHForall.
Qed.

Lemma format_datetime_digits ls : 0 <= year_of ls < 10000 ->
  format_datetime ls = chars ([year_of ls / 1000; year_of ls / 100 mod 10; year_of ls / 10 mod 10; year_of ls mod 10] ++
    [month_of ls / 10; month_of ls mod 10] ++ [day_of ls / 10; day_of ls mod 10] ++
    [hour_of ls / 10; hour_of ls mod 10] ++ [minute_of ls / 10; minute_of ls mod 10] ++ [second_of ls / 10; second_of ls mod 10]).
Proof.
  intros. destruct (fields_ok ls) as (H1 & H2 & H3 & H4 & H5 & H6).
  pose proof (days_in_le (month_of ls) (year_of ls) H1).
  unfold format_datetime, format_date. rewrite four_digits by auto. rewrite !two_digits by lia. reflexivity.
Qed.
Lemma format_date_digits ls : 0 <= year_of ls < 10000 ->
  format_date ls = chars ([year_of ls / 1000; year_of ls / 100 mod 10; year_of ls / 10 mod 10; year_of ls mod 10] ++
    [month_of ls / 10; month_of ls mod 10] ++ [day_of ls / 10; day_of ls mod 10]).
Proof.
  intros. destruct (fields_ok ls) as (H1 & H2 & H3 & H4 & H5 & H6).
  pose proof (days_in_le (month_of ls) (year_of ls) H1).
  unfold format_date. rewrite four_digits by auto. rewrite !two_digits by lia. reflexivity.
Qed.

Lemma parse_digits tz y1 y2 y3 y4 m1 m2 d1 d2 h1 h2 i1 i2 s1 s2 :
  digits [y1; y2; y3; y4; m1; m2; d1; d2; h1; h2; i1; i2; s1; s2] ->
  let y := ((y1 * 10 + y2) * 10 + y3) * 10 + y4 in
  let m := m1 * 10 + m2 in let d := d1 * 10 + d2 in
  1 <= m <= 12 -> 1 <= d <= days_in m y -> h1 * 10 + h2 < 24 -> i1 * 10 + i2 < 60 -> s1 * 10 + s2 < 60 ->
  parse_datetime tz (chars [y1; y2; y3; y4; m1; m2; d1; d2; h1; h2; i1; i2; s1; s2]) =
  Ok (GoTime (days_from_civil y m d * 86400 + (h1 * 10 + h2) * 3600 + (i1 * 10 + i2) * 60 + (s1 * 10 + s2) - tz) 0 tz).
Proof.
  intros Hd y m d Hm Hdd Hh Hi Hs. unfold parse_datetime.
  assert (D : forall a b, In a [y1; y2; y3; y4; m1; m2; d1; d2; h1; h2; i1; i2; s1; s2] ->
              In b [y1; y2; y3; y4; m1; m2; d1; d2; h1; h2; i1; i2; s1; s2] -> digits [a; b]).
  { intros a b Ha Hb. unfold digits in *. rewrite Forall_forall in Hd. repeat constructor; apply Hd; auto. }
  assert (N : forall a b, digits [a; b] -> num_of 0 [a + 48; b + 48] = Some (a * 10 + b)).
  { intros a b H. exact (num_of_chars [a; b] H 0). }
  cbn [chars map firstn skipn]. change (negb (zlen _ =? 14)) with false. cbv iota.
  change [y1 + 48; y2 + 48; y3 + 48; y4 + 48] with (chars [y1; y2; y3; y4]).
  rewrite num_of_chars by (apply (Forall_app _ [y1; y2; y3; y4] _) in Hd; apply Hd).
  rewrite !N by (apply D; cbn; tauto). cbn [fold_left].
  replace ((((0 * 10 + y1) * 10 + y2) * 10 + y3) * 10 + y4) with y by (unfold y; lia). fold m d.
  replace (_ && _) with true; [reflexivity|].
  symmetry. repeat (apply andb_true_intro; split); lia.
Qed.

(** ** C18 *)
Definition local (tz : Z) (t : gotime) : Z := t_sec t + tz.

Lemma year_digits y : 2000 <= y < 2100 ->
  y / 1000 = 2 /\ y / 100 mod 10 = 0 /\ y / 10 mod 10 = (y - 2000) / 10 /\ y mod 10 = (y - 2000) mod 10.
Proof. intros. lia. Qed.
Lemma to_bcd_time_len tz t : length (to_bcd_time tz t) = 6%nat.
Proof. apply string_to_bcd_n_length. Qed.

Definition time_digits (ls : Z) : list Z :=
  [(year_of ls - 2000) / 10; (year_of ls - 2000) mod 10; month_of ls / 10; month_of ls mod 10; day_of ls / 10; day_of ls mod 10;
   hour_of ls / 10; hour_of ls mod 10; minute_of ls / 10; minute_of ls mod 10; second_of ls / 10; second_of ls mod 10].
Lemma time_digits_ok ls : 2000 <= year_of ls < 2100 -> digits (time_digits ls).
Proof.
  intros. destruct (fields_ok ls) as (H1 & H2 & H3 & H4 & H5 & H6).
  pose proof (days_in_le (month_of ls) (year_of ls) H1).
  repeat constructor; unfold is_digit; lia.
Qed.
Lemma bcd_time_text tz t : 2000 <= year_of (local tz t) < 2100 ->
  bcd_to_string (to_bcd_time tz t) = chars (dropz (time_digits (local tz t))).
Proof.
  intros Hy. unfold to_bcd_time. fold (local tz t). rewrite format_datetime_digits by lia.
  destruct (year_digits _ Hy) as (-> & -> & -> & ->). cbn [app chars map skipn].
  change (string_to_bcd_n _ 6) with (string_to_bcd_n (chars (time_digits (local tz t))) 6).
  apply bcd_roundtrip; [apply time_digits_ok; auto|cbn; lia].
Qed.
Lemma bcd_time_bytes tz t : 2000 <= year_of (local tz t) < 2100 -> bytes_ok (to_bcd_time tz t).
Proof.
  intros Hy. unfold to_bcd_time. fold (local tz t). rewrite format_datetime_digits by lia.
  destruct (year_digits _ Hy) as (-> & -> & -> & ->). cbn [app chars map skipn].
  change (string_to_bcd_n _ 6) with (string_to_bcd_n (chars (time_digits (local tz t))) 6).
  apply string_to_bcd_n_bytes, time_digits_ok; auto.
Qed.
Lemma bcd_time_roundtrip tz t : 2010 <= year_of (local tz t) < 2100 ->
  from_bcd_time tz (to_bcd_time tz t) = Ok (GoTime (t_sec t) 0 tz).
Proof.
  intros Hy. unfold from_bcd_time.
  replace (zlen (to_bcd_time tz t)) with 6 by (unfold zlen; rewrite to_bcd_time_len; auto).
  change (negb (6 =? 6)) with false. cbv iota. rewrite bcd_time_text by lia.
  unfold time_digits. rewrite dropz_id by lia.
  set (ls := local tz t) in *.
  destruct (fields_ok ls) as (H1 & H2 & H3 & H4 & H5 & H6).
  pose proof (days_in_le (month_of ls) (year_of ls) H1).
  match goal with |- parse_datetime tz (50 :: 48 :: chars ?l) = _ =>
    change (50 :: 48 :: chars l) with (chars (2 :: 0 :: l)) end.
  rewrite parse_digits.
  - do 2 f_equal. replace (((2 * 10 + 0) * 10 + (year_of ls - 2000) / 10) * 10 + (year_of ls - 2000) mod 10) with (year_of ls) by lia.
    replace (month_of ls / 10 * 10 + month_of ls mod 10) with (month_of ls) by lia.
    replace (day_of ls / 10 * 10 + day_of ls mod 10) with (day_of ls) by lia.
    replace (hour_of ls / 10 * 10 + hour_of ls mod 10) with (hour_of ls) by lia.
    replace (minute_of ls / 10 * 10 + minute_of ls mod 10) with (minute_of ls) by lia.
    replace (second_of ls / 10 * 10 + second_of ls mod 10) with (second_of ls) by lia.
    rewrite H6. unfold ls, local. lia.
  - constructor; [unfold is_digit; lia|]. constructor; [unfold is_digit; lia|]. apply time_digits_ok. fold ls. lia.
  - lia.
  - replace (((2 * 10 + 0) * 10 + (year_of ls - 2000) / 10) * 10 + (year_of ls - 2000) mod 10) with (year_of ls) by lia.
    replace (month_of ls / 10 * 10 + month_of ls mod 10) with (month_of ls) by lia. lia.
  - lia.
  - lia.
  - lia.
Qed.
Lemma bcd_time_early tz t : 2000 <= year_of (local tz t) < 2010 ->
  from_bcd_time tz (to_bcd_time tz t) = Err ErrParse.
Proof.
  intros Hy. unfold from_bcd_time.
  replace (zlen (to_bcd_time tz t)) with 6 by (unfold zlen; rewrite to_bcd_time_len; auto).
  change (negb (6 =? 6)) with false. cbv iota. rewrite bcd_time_text by lia.
  unfold parse_datetime. match goal with |- context[negb (?x =? 14)] => replace (x =? 14) with false end; [reflexivity|].
  symmetry. apply Z.eqb_neq. zl. rewrite zlen_chars.
  assert (zlen (dropz (time_digits (local tz t))) <= 11); [|lia].
  unfold time_digits. replace ((year_of (local tz t) - 2000) / 10) with 0 by lia.
  match goal with |- zlen (dropz (0 :: ?l)) <= 11 => change (zlen (dropz l) <= 11); pose proof (zlen_dropz_le l) as Q end.
  eapply Z.le_trans; [exact Q|]. apply Z.leb_le. reflexivity.
Qed.
Lemma local_century ls : 946684800 <= ls < 4102444800 -> 2000 <= year_of ls < 2100.
Proof.
  intros. assert (A : days_from_civil 2000 1 1 = 10957) by reflexivity. assert (B : days_from_civil 2100 1 1 = 47482) by reflexivity.
  apply year_range; rewrite ?A, ?B; lia.
Qed.
Lemma local_2010 ls : 1262304000 <= ls < 4102444800 -> 2010 <= year_of ls < 2100.
Proof.
  intros. assert (A : days_from_civil 2010 1 1 = 14610) by reflexivity. assert (B : days_from_civil 2100 1 1 = 47482) by reflexivity.
  apply year_range; rewrite ?A, ?B; lia.
Qed.
Lemma local_early ls : 946684800 <= ls < 1262304000 -> 2000 <= year_of ls < 2010.
Proof.
  intros. assert (A : days_from_civil 2000 1 1 = 10957) by reflexivity. assert (B : days_from_civil 2010 1 1 = 14610) by reflexivity.
  apply year_range; rewrite ?A, ?B; lia.
Qed.

(** ** Dates of 0x0702 *)
Definition date_digits (ls : Z) : list Z :=
  [year_of ls / 1000; year_of ls / 100 mod 10; year_of ls / 10 mod 10; year_of ls mod 10;
   month_of ls / 10; month_of ls mod 10; day_of ls / 10; day_of ls mod 10].
Lemma date_digits_ok ls : 0 <= year_of ls < 10000 -> digits (date_digits ls).
Proof.
  intros. destruct (fields_ok ls) as (H1 & H2 & H3 & H4 & H5 & H6).
  pose proof (days_in_le (month_of ls) (year_of ls) H1).
  repeat constructor; unfold is_digit; lia.
Qed.
Lemma date_roundtrip tz ls : 1000 <= year_of ls < 10000 -> ls mod 86400 = 0 ->
  parse_datetime tz (bcd_to_string (string_to_bcd_n (format_date ls) 4) ++ repeat 48 6) = Ok (GoTime (ls - tz) 0 tz).
Proof.
  intros Hy Hmid. rewrite format_date_digits by lia.
  destruct (fields_ok ls) as (H1 & H2 & H3 & H4 & H5 & H6).
  pose proof (days_in_le (month_of ls) (year_of ls) H1).
  change (_ ++ _ ++ [day_of ls / 10; day_of ls mod 10]) with (date_digits ls).
  rewrite bcd_roundtrip by (try apply date_digits_ok; try lia; cbn; lia).
  unfold date_digits. rewrite dropz_id by lia.
  match goal with |- parse_datetime tz (chars ?l ++ repeat 48 6) = _ =>
    change (chars l ++ repeat 48 6) with (chars (l ++ [0; 0; 0; 0; 0; 0])) end.
  cbn [app].
  assert (Y : ((year_of ls / 1000 * 10 + year_of ls / 100 mod 10) * 10 + year_of ls / 10 mod 10) * 10 + year_of ls mod 10 = year_of ls) by lia.
  assert (M : month_of ls / 10 * 10 + month_of ls mod 10 = month_of ls) by lia.
  assert (D : day_of ls / 10 * 10 + day_of ls mod 10 = day_of ls) by lia.
  rewrite parse_digits.
  - rewrite Y, M, D. do 2 f_equal. assert (hour_of ls = 0 /\ minute_of ls = 0 /\ second_of ls = 0) by
      (unfold hour_of, minute_of, second_of; lia). lia.
  - apply (Forall_app is_digit (date_digits ls) [0; 0; 0; 0; 0; 0]). split; [apply date_digits_ok; lia|].
    repeat constructor; unfold is_digit; lia.
  - lia.
  - rewrite Y, M, D. lia.
  - lia.
  - lia.
  - lia.
Qed.
