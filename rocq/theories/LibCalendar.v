(** The Gregorian calendar of time.Time. *)
From Verif Require Import Base LibBase Bcd LibBcd GoTime.

(** ** Calendar *)
Lemma days_shift y m d k : days_from_civil (y + 400 * k) m d = days_from_civil y m d + 146097 * k.
Proof.
  unfold days_from_civil. destruct (m <=? 2).
  - replace (y + 400 * k - 1) with (y - 1 + k * 400) by lia. rewrite Z.div_add, Z.mod_add by lia. lia.
  - replace (y + 400 * k) with (y + k * 400) by lia. rewrite Z.div_add, Z.mod_add by lia. lia.
Qed.
Lemma civil_shift z k : civil_from_days (z + 146097 * k) =
  let '(y, m, d) := civil_from_days z in (y + 400 * k, m, d).
Proof.
  unfold civil_from_days. replace (z + 146097 * k + 719468) with (z + 719468 + k * 146097) by lia.
  rewrite Z.div_add, Z.mod_add by lia. f_equal. f_equal. lia.
Qed.
Lemma is_leap_shift y k : is_leap (y + 400 * k) = is_leap y.
Proof.
  unfold is_leap.
  replace ((y + 400 * k) mod 4) with (y mod 4) by (replace (400 * k) with (100 * k * 4) by lia; rewrite Z.mod_add by lia; auto).
  replace ((y + 400 * k) mod 100) with (y mod 100) by (replace (400 * k) with (4 * k * 100) by lia; rewrite Z.mod_add by lia; auto).
  replace ((y + 400 * k) mod 400) with (y mod 400) by (replace (400 * k) with (k * 400) by lia; rewrite Z.mod_add by lia; auto).
  auto.
Qed.
Lemma days_in_shift m y k : days_in m (y + 400 * k) = days_in m y.
Proof. unfold days_in. rewrite is_leap_shift. auto. Qed.

(** Date after (y, m, d) in the Gregorian calendar. *)
Definition next_date (c : Z * Z * Z) : Z * Z * Z :=
  let '(y, m, d) := c in
  if d <? days_in m y then (y, m, d + 1)
  else if m <? 12 then (y, m + 1, 1)
  else (y + 1, 1, 1).

(** A day of the 400-year era as year of era (100 c + 4 q + r, years from March) and day of that year. *)
Definition long_year (c q r : Z) : Z := if (r =? 3) && ((q <? 24) || (c =? 3)) then 1 else 0.
Lemma era_split doe : 0 <= doe < 146097 -> exists c q r doy,
  0 <= c <= 3 /\ 0 <= q <= 24 /\ 0 <= r <= 3 /\ 0 <= doy <= 364 + long_year c q r /\
  doe = 36524 * c + 1461 * q + 365 * r + doy.
Proof.
  intros H. exists (Z.min 3 (doe / 36524)).
  set (c := Z.min 3 (doe / 36524)). set (a := doe - 36524 * c).
  assert (0 <= c <= 3 /\ 0 <= a /\ (a <= 36524) /\ (c < 3 -> a < 36524)) by (unfold a, c; lia).
  exists (Z.min 24 (a / 1461)). set (q := Z.min 24 (a / 1461)). set (b := a - 1461 * q).
  assert (0 <= q <= 24 /\ 0 <= b < 1461 /\ (q = 24 -> b <= 1460) /\ (q = 24 -> c < 3 -> b < 1460)) by (unfold b, q; lia).
  exists (Z.min 3 (b / 365)). set (r := Z.min 3 (b / 365)). exists (b - 365 * r).
  assert (E : doe = 36524 * c + 1461 * q + 365 * r + (b - 365 * r)) by (unfold b, a; lia).
  clearbody c. subst a. clearbody q. subst b. clear H. unfold long_year.
  assert (0 <= r <= 3) by (unfold r; lia).
  split; [lia|]. split; [lia|]. split; [lia|]. split; [|exact E].
  unfold r in *. destruct (_ && _) eqn:B; lia.
Qed.
Lemma era_year c q r doy : 0 <= c <= 3 -> 0 <= q <= 24 -> 0 <= r <= 3 -> 0 <= doy <= 364 + long_year c q r ->
  let doe := 36524 * c + 1461 * q + 365 * r + doy in
  let yoe := 100 * c + 4 * q + r in
  (doe - doe / 1460 + doe / 36524 - doe / 146096) / 365 = yoe /\
  doe - (365 * yoe + yoe / 4 - yoe / 100) = doy /\ 0 <= doe < 146097.
Proof.
  intros Hc Hq Hr Hd doe yoe.
  assert (Hl : 0 <= long_year c q r <= 1) by (unfold long_year; destruct (_ && _); lia).
  assert (yoe / 4 = 25 * c + q) by (unfold yoe; lia).
  assert (yoe / 100 = c) by (unfold yoe; lia).
  assert (D : 0 <= doe < 146097).
  { unfold doe. unfold long_year in Hd. destruct (_ && _) eqn:B; lia. }
  split; [|split; [unfold yoe in *; unfold doe; lia|exact D]].
  assert (E3 : (doe / 36524 - doe / 146096) = c).
  { assert (doe <= 36524 * c + 36523 \/ (c = 3 /\ doe = 146096)).
    { unfold doe. unfold long_year in Hd. destruct (_ && _) eqn:B; lia. }
    assert (36524 * c <= doe) by (unfold doe; lia). clearbody doe. clear - Hc H1 H2 D.
    destruct H1 as [H1|[-> ->]]; [|reflexivity].
    rewrite (Z.div_small doe 146096) by lia. assert (doe / 36524 = c); [|lia]. symmetry. apply Z.div_unique with (doe - 36524 * c); lia. }
  replace (doe - doe / 1460 + doe / 36524 - doe / 146096) with (doe - doe / 1460 + c) by lia.
  assert (E1 : doe / 1460 = 25 * c + q + (24 * c + q + 365 * r + doy) / 1460).
  { unfold doe. replace (36524 * c + 1461 * q + 365 * r + doy) with (24 * c + q + 365 * r + doy + (25 * c + q) * 1460) by lia.
    rewrite Z.div_add by lia. lia. }
  rewrite E1. symmetry. apply Z.div_unique with (r := doy - (24 * c + q + 365 * r + doy) / 1460 + 24 * c - 25 * c - q + c + 1461 * q - 1460 * q + 36500 * c - 36500 * c).
  - left. assert (r < 3 \/ r = 3) as [R|R] by lia.
    + unfold long_year in Hd. replace (r =? 3) with false in Hd by lia. cbn [andb] in Hd. lia.
    + subst r. lia.
  - unfold doe, yoe. lia.
Qed.

(** Day of the year (from March) to month and day. *)
Definition month_pos (doy : Z) : Z := (5 * doy + 2) / 153.
Definition day_pos (doy : Z) : Z := doy - (153 * month_pos doy + 2) / 5 + 1.
Definition month_num (mp : Z) : Z := if mp <? 10 then mp + 3 else mp - 9.
(** Longest length of a month. *)
Definition month_max (m : Z) : Z := days_in m 2000.
Definition doy_ok (x : Z) : bool :=
  let m := month_num (month_pos x) in let d := day_pos x in
  (0 <=? month_pos x) && (month_pos x <=? 11) && (1 <=? d) && (d <=? month_max m) &&
  ((month_pos x =? 11) && (d =? 29) || (x <? 365)) &&
  (negb ((month_pos x =? 11) && (d =? 29)) || (x =? 365)) &&
  (negb (x =? 364) || ((month_pos x =? 11) && (d =? 28))) &&
  ((x =? 365) || (if d <? month_max m
                  then (month_pos (x + 1) =? month_pos x) && (day_pos (x + 1) =? d + 1)
                  else (month_pos (x + 1) =? month_pos x + 1) && (day_pos (x + 1) =? 1))).
Fixpoint sweep (p : Z -> bool) (n : nat) (z : Z) : bool :=
  match n with
  | O => true
  | S n' => if p z then sweep p n' (z + 1) else false
  end.
Lemma sweep_spec p n : forall z, sweep p n z = true -> forall i, z <= i < z + Z.of_nat n -> p i = true.
Proof.
  induction n; intros z H i Hi; [lia|]. cbn [sweep] in H. destruct (p z) eqn:E; [|discriminate].
  destruct (Z.eq_dec i z); [subst; auto|]. apply (IHn (z + 1)); auto. lia.
Qed.
Lemma year_sweep : sweep doy_ok 366 0 = true.
Proof. reflexivity. Qed.
Lemma doy_all x : 0 <= x <= 365 -> doy_ok x = true.
Proof. intros. apply (sweep_spec _ _ _ year_sweep). lia. Qed.

(** The date of a day given as above. *)
Definition date_at (era c q r doy : Z) : Z * Z * Z :=
  let m := month_num (month_pos doy) in
  (100 * c + 4 * q + r + era * 400 + (if m <=? 2 then 1 else 0), m, day_pos doy).
Lemma civil_at z era c q r doy :
  0 <= c <= 3 -> 0 <= q <= 24 -> 0 <= r <= 3 -> 0 <= doy <= 364 + long_year c q r ->
  z + 719468 = 146097 * era + (36524 * c + 1461 * q + 365 * r + doy) ->
  civil_from_days z = date_at era c q r doy.
Proof.
  intros Hc Hq Hr Hd Hz. destruct (era_year c q r doy Hc Hq Hr Hd) as (E1 & E2 & E3).
  unfold civil_from_days. rewrite Hz.
  replace (146097 * era + _) with (36524 * c + 1461 * q + 365 * r + doy + era * 146097) by lia.
  set (doe := 36524 * c + 1461 * q + 365 * r + doy) in *.
  rewrite (Z.div_add doe era 146097), (Z.mod_add doe era 146097) by lia.
  rewrite (Z.div_small doe 146097), (Z.mod_small doe 146097) by lia.
  cbv zeta. rewrite E1, E2. unfold date_at, month_num, month_pos, day_pos. f_equal.
Qed.
Lemma leap_at era c q r : 0 <= c <= 3 -> 0 <= q <= 24 -> 0 <= r <= 3 ->
  is_leap (100 * c + 4 * q + r + era * 400 + 1) = (long_year c q r =? 1).
Proof.
  intros. unfold is_leap, long_year.
  set (y := 100 * c + 4 * q + r + era * 400 + 1).
  assert (y mod 4 = (r + 1) mod 4) as ->
    by (replace y with (r + 1 + (25 * c + q + 100 * era) * 4) by (unfold y; lia); apply Z.mod_add; lia).
  assert (y mod 100 = (4 * q + r + 1) mod 100) as ->
    by (replace y with (4 * q + r + 1 + (c + 4 * era) * 100) by (unfold y; lia); apply Z.mod_add; lia).
  assert (y mod 400 = (100 * c + 4 * q + r + 1) mod 400) as ->
    by (replace y with (100 * c + 4 * q + r + 1 + era * 400) by (unfold y; lia); apply Z.mod_add; lia).
  assert (((r + 1) mod 4 =? 0) = (r =? 3)) as -> by lia.
  assert (((4 * q + r + 1) mod 100 =? 0) = ((r =? 3) && (q =? 24))) as -> by lia.
  assert (((100 * c + 4 * q + r + 1) mod 400 =? 0) = ((r =? 3) && (q =? 24) && (c =? 3))) as -> by lia.
  destruct (Z.eqb_spec r 3), (Z.eqb_spec q 24), (Z.eqb_spec c 3); cbn [andb orb negb]; subst;
    try (replace (q <? 24) with true by lia); reflexivity.
Qed.
Lemma days_in_not2 m y y' : m <> 2 -> days_in m y = days_in m y'.
Proof. intros. unfold days_in. replace (m =? 2) with false by lia. auto. Qed.

Lemma calendar z : let '(y, m, d) := civil_from_days z in
  days_from_civil y m d = z /\ 1 <= m <= 12 /\ 1 <= d <= days_in m y /\
  civil_from_days (z + 1) = next_date (y, m, d).
Proof.
  set (era := (z + 719468) / 146097). destruct (era_split ((z + 719468) mod 146097) ltac:(lia)) as (c & q & r & doy & Hc & Hq & Hr & Hd & E).
  assert (Hz : z + 719468 = 146097 * era + (36524 * c + 1461 * q + 365 * r + doy)) by (unfold era; lia).
  clearbody era. clear E.
  rewrite (civil_at z era c q r doy Hc Hq Hr Hd Hz).
  assert (Hl : 0 <= long_year c q r <= 1) by (unfold long_year; destruct (_ && _); lia).
  pose proof (doy_all doy ltac:(lia)) as K. unfold doy_ok in K. cbv zeta in K.
  repeat (apply andb_prop in K; destruct K as [K ?K]).
  unfold date_at. set (mp := month_pos doy) in *. set (d := day_pos doy) in *.
  assert (Hm : 0 <= mp <= 11) by lia.
  set (m := month_num mp) in *.
  assert (Mm : (mp < 10 /\ m = mp + 3 /\ (m <=? 2) = false) \/ (10 <= mp /\ m = mp - 9 /\ (m <=? 2) = true)).
  { unfold m, month_num. destruct (Z.ltb_spec mp 10); [left|right]; lia. }
  assert (Fd : days_in m (100 * c + 4 * q + r + era * 400 + (if m <=? 2 then 1 else 0)) =
               if m =? 2 then 28 + long_year c q r else month_max m).
  { destruct (Z.eqb_spec m 2) as [M|M].
    - rewrite M. change (2 <=? 2) with true. cbv iota. unfold days_in. change (2 =? 2) with true. cbv iota.
      rewrite leap_at by auto. destruct (Z.eqb_spec (long_year c q r) 1); lia.
    - apply days_in_not2; auto. }
  assert (M2 : m = 2 <-> mp = 11) by lia.
  assert (X2 : m = 2 -> month_max m = 29) by (intros ->; reflexivity).
  split; [|split; [lia|split]].
  - unfold days_from_civil. cbv zeta.
    assert ((if m <=? 2 then 100 * c + 4 * q + r + era * 400 + (if m <=? 2 then 1 else 0) - 1
             else 100 * c + 4 * q + r + era * 400 + (if m <=? 2 then 1 else 0)) = 100 * c + 4 * q + r + era * 400) as ->
      by (destruct (m <=? 2); lia).
    rewrite Z.div_add, Z.mod_add by lia. rewrite (Z.div_small (100 * c + 4 * q + r) 400), (Z.mod_small (100 * c + 4 * q + r) 400) by lia.
    assert ((m + 9) mod 12 = mp) as -> by lia.
    assert ((153 * mp + 2) / 5 + d - 1 = doy) by (unfold d, day_pos; fold mp; lia).
    assert ((100 * c + 4 * q + r) / 4 = 25 * c + q) by lia.
    assert ((100 * c + 4 * q + r) / 100 = c) by lia. lia.
  - rewrite Fd. split; [lia|]. destruct (Z.eqb_spec m 2); lia.
  - unfold next_date. rewrite Fd.
    assert (doy < 364 + long_year c q r \/ doy = 364 + long_year c q r) as [D|D] by lia.
    + rewrite (civil_at (z + 1) era c q r (doy + 1)) by (auto; lia). unfold date_at. cbv zeta.
      replace (doy =? 365) with false in K0 by lia. cbn [orb] in K0.
      destruct (Z.ltb_spec d (month_max m)) as [L|L].
      * apply andb_prop in K0. destruct K0 as [A B].
        replace (month_pos (doy + 1)) with mp by lia. replace (day_pos (doy + 1)) with (d + 1) by lia. fold m.
        replace (d <? (if m =? 2 then 28 + long_year c q r else month_max m)) with true; [reflexivity|].
        destruct (Z.eqb_spec m 2) as [M|M]; [|lia]. destruct (Z.eq_dec d 28); [|lia].
        (* 28 February of a short year is the last day *)
        assert (doy = 364); [|lia]. assert (mp = 11) by lia. unfold d, day_pos in *. fold mp in e. lia.
      * apply andb_prop in K0. destruct K0 as [A B].
        replace (month_pos (doy + 1)) with (mp + 1) by lia. replace (day_pos (doy + 1)) with 1 by lia.
        assert (m <> 2) by (intros M; assert (d = 29) by lia; assert (doy = 365) by lia; lia).
        replace (m =? 2) with false by lia. replace (d <? month_max m) with false by lia.
        assert (mp < 11) by lia. clearbody m.
        assert (N : month_num (mp + 1) = if m <? 12 then m + 1 else 1).
        { unfold month_num. destruct (Z.ltb_spec m 12), (Z.ltb_spec (mp + 1) 10); lia. }
        rewrite N. destruct (Z.ltb_spec m 12).
        { replace (m + 1 <=? 2) with (m <=? 2); [reflexivity|]. lia. }
        { replace (m <=? 2) with false by lia. change (1 <=? 2) with true. cbv iota. f_equal. f_equal. lia. }
    + assert (M : m = 2 /\ d = 28 + long_year c q r).
      { destruct (Z.eqb_spec doy 365); [assert (mp = 11 /\ d = 29) by lia; lia|].
        assert (doy = 364) by lia. assert (mp = 11 /\ d = 28) by lia. lia. }
      destruct M as [M Ed]. rewrite M, Ed. change (2 =? 2) with true. cbv iota. rewrite Z.ltb_irrefl.
      change (2 <? 12) with true. change (2 <=? 2) with true. cbv iota.
      (* 1 March of the next year of the era *)
      assert (exists era' c' q' r', 0 <= c' <= 3 /\ 0 <= q' <= 24 /\ 0 <= r' <= 3 /\
        100 * c' + 4 * q' + r' + era' * 400 = 100 * c + 4 * q + r + era * 400 + 1 /\
        z + 1 + 719468 = 146097 * era' + (36524 * c' + 1461 * q' + 365 * r' + 0)) as (e' & c' & q' & r' & A1 & A2 & A3 & A4 & A5).
      { clear - D Hz Hc Hq Hr. unfold long_year in D. revert D. destruct (Z.eqb_spec r 3).
        2:{ intros D. cbn [andb] in D. exists era, c, q, (r + 1). lia. }
        cbn [andb]. destruct (Z.ltb_spec q 24).
        { intros D. cbn [orb] in D. exists era, c, (q + 1), 0. lia. }
        cbn [orb]. destruct (Z.eqb_spec c 3); intros D; [exists (era + 1), 0, 0, 0; lia|exists era, (c + 1), 0, 0; lia]. }
      assert (0 <= 0 <= 364 + long_year c' q' r') by (unfold long_year; destruct ((r' =? 3) && ((q' <? 24) || (c' =? 3))); lia).
      rewrite (civil_at (z + 1) e' c' q' r' 0) by auto.
      unfold date_at. cbv zeta. change (month_num (month_pos 0)) with 3. change (day_pos 0) with 1.
      change (3 <=? 2) with false. cbv iota. f_equal. f_equal. lia.
Qed.

(** Linear form of the day number. *)
Lemma days_linear y m d : days_from_civil y m d =
  let y' := if m <=? 2 then y - 1 else y in
  365 * y' + y' / 4 - y' / 100 + y' / 400 + (153 * ((m + 9) mod 12) + 2) / 5 + d - 1 - 719468.
Proof.
  unfold days_from_civil. cbv zeta. set (y' := if m <=? 2 then y - 1 else y).
  assert (E : y' = 400 * (y' / 400) + y' mod 400) by lia.
  set (q := y' / 400) in *. set (r := y' mod 400) in *.
  assert (0 <= r < 400) by (unfold r; lia).
  assert (y' / 4 = 100 * q + r / 4) as -> by lia.
  assert (y' / 100 = 4 * q + r / 100) as -> by lia. lia.
Qed.
Lemma year_mono a b : a <= b -> 365 * a + a / 4 - a / 100 + a / 400 <= 365 * b + b / 4 - b / 100 + b / 400.
Proof. intros. lia. Qed.
Lemma days_in_le m y : 1 <= m <= 12 -> 28 <= days_in m y <= 31.
Proof. unfold days_in. intros. repeat (destruct (_ =? _)); cbn; try lia; destruct (is_leap y); lia. Qed.
Lemma mp_cases m : 1 <= m <= 12 ->
  (m = 1 /\ (m + 9) mod 12 = 10 \/ m = 2 /\ (m + 9) mod 12 = 11 \/ (3 <= m /\ (m + 9) mod 12 = m - 3)).
Proof. intros. lia. Qed.
(** The first day of a year bounds the days of the years from there on. *)
Lemma year_lower y m d Y : 1 <= m <= 12 -> 1 <= d <= days_in m y ->
  days_from_civil Y 1 1 <= days_from_civil y m d -> Y <= y.
Proof.
  intros Hm Hd H. destruct (Z.leb_spec Y y); auto. exfalso.
  rewrite !days_linear in H. cbv zeta in H. change (1 <=? 2) with true in H. cbv iota in H.
  change ((1 + 9) mod 12) with 10 in H.
  pose proof (days_in_le m y Hm).
  pose proof (year_mono (y + 1) Y ltac:(lia)). pose proof (year_mono (y) (Y - 1) ltac:(lia)).
  pose proof (year_mono (y - 1) (Y - 2) ltac:(lia)).
  assert (Hs : forall a, 365 + (365 * a + a / 4 - a / 100 + a / 400) <= 365 * (a + 1) + (a + 1) / 4 - (a + 1) / 100 + (a + 1) / 400).
  { intros. lia. }
  pose proof (Hs (y - 1)). replace (y - 1 + 1) with y in H4 by lia.
  destruct (mp_cases m Hm) as [[-> E]|[[-> E]|[Hm3 E]]]; rewrite ?E in H.
  - change (1 <=? 2) with true in H. cbv iota in H. change (days_in 1 y) with 31 in Hd. lia.
  - change (2 <=? 2) with true in H. cbv iota in H.
    assert (d <= 29) by (unfold days_in in Hd; change (2 =? 2) with true in Hd; cbv iota in Hd; destruct (is_leap y); lia). lia.
  - replace (m <=? 2) with false in H by lia. cbv iota in H.
    assert (Hdoy : (153 * (m - 3) + 2) / 5 + d - 1 < 306).
    { unfold days_in in Hd. change ((153 * (m - 3) + 2) / 5 + d - 1 < 306).
      assert (m = 3 \/ m = 4 \/ m = 5 \/ m = 6 \/ m = 7 \/ m = 8 \/ m = 9 \/ m = 10 \/ m = 11 \/ m = 12) as C by lia.
      repeat (destruct C as [->|C]; [cbn in Hd |- *; lia|]). subst. cbn in Hd |- *. lia. }
    lia.
Qed.
Lemma year_upper y m d Y : 1 <= m <= 12 -> 1 <= d ->
  days_from_civil y m d < days_from_civil Y 1 1 -> y < Y.
Proof.
  intros Hm Hd H. destruct (Z.ltb_spec y Y); auto. exfalso.
  rewrite !days_linear in H. cbv zeta in H. change (1 <=? 2) with true in H. cbv iota in H.
  change ((1 + 9) mod 12) with 10 in H.
  pose proof (year_mono (Y - 1) (y - 1) ltac:(lia)).
  assert (Hs : forall a, 365 + (365 * a + a / 4 - a / 100 + a / 400) <= 365 * (a + 1) + (a + 1) / 4 - (a + 1) / 100 + (a + 1) / 400).
  { intros. lia. }
  pose proof (Hs (y - 1)). replace (y - 1 + 1) with y in H2 by lia.
  destruct (mp_cases m Hm) as [[-> E]|[[-> E]|[Hm3 E]]]; rewrite ?E in H.
  - change (1 <=? 2) with true in H. cbv iota in H. lia.
  - change (2 <=? 2) with true in H. cbv iota in H. lia.
  - replace (m <=? 2) with false in H by lia. cbv iota in H. lia.
Qed.

(** Local second [ls] split into fields. *)
Record fields := Fields { f_y : Z; f_mo : Z; f_d : Z; f_h : Z; f_mi : Z; f_s : Z }.
Definition fields_of (ls : Z) : fields :=
  Fields (year_of ls) (month_of ls) (day_of ls) (hour_of ls) (minute_of ls) (second_of ls).
Lemma fields_ok ls : 1 <= month_of ls <= 12 /\ 1 <= day_of ls <= days_in (month_of ls) (year_of ls) /\
  0 <= hour_of ls < 24 /\ 0 <= minute_of ls < 60 /\ 0 <= second_of ls < 60 /\
  days_from_civil (year_of ls) (month_of ls) (day_of ls) * 86400 + hour_of ls * 3600 + minute_of ls * 60 + second_of ls = ls.
Proof.
  unfold year_of, month_of, day_of, hour_of, minute_of, second_of.
  pose proof (calendar (ls / 86400)) as H. destruct (civil_from_days (ls / 86400)) as [[y m] d]. cbn [fst snd].
  destruct H as (H1 & H2 & H3 & _). rewrite H1. repeat split; try lia.
Qed.
Lemma year_range ls a b : days_from_civil a 1 1 * 86400 <= ls -> ls < days_from_civil b 1 1 * 86400 -> a <= year_of ls < b.
Proof.
  intros Ha Hb. destruct (fields_ok ls) as (H1 & H2 & H3 & H4 & H5 & H6).
  split.
  - eapply year_lower; eauto. lia.
  - eapply year_upper; [apply H1|apply H2|]. lia.
Qed.

