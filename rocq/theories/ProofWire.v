(** The wire layout: every field has exactly one form, and the writers produce it. *)
From Verif Require Import Base LibBase Bits LibBits Bcd LibBcd GoTime LibCalendar LibTime Decimal Env SpecGeo LibDec
  EntTerm EntPlat Registry SpecEntity LibEntity SpecWire.

(** ** Numbers *)
Lemma value_app a b : value (a ++ b) = value a * 256 ^ zlen b + value b.
Proof.
  induction a; cbn [app value]; [lia|]. rewrite IHa, zlen_app, Z.pow_add_r by apply zlen_nonneg. lia.
Qed.
Lemma value_bound b : bytes_ok b -> 0 <= value b < 256 ^ zlen b.
Proof.
  induction b; intros H; [cbn; lia|]. apply bytes_ok_cons in H as [H1 H2]. cbn [value]. specialize (IHb H2).
  rewrite zlen_cons, Z.pow_add_r by (try apply zlen_nonneg; lia). unfold is_byte in H1. nia.
Qed.
Lemma value_inj a : forall b, bytes_ok a -> bytes_ok b -> length a = length b -> value a = value b -> a = b.
Proof.
  induction a; intros [|y b] Ha Hb Hl Hv; try discriminate; auto.
  apply bytes_ok_cons in Ha as [Ha1 Ha2]. apply bytes_ok_cons in Hb as [Hb1 Hb2].
  cbn [value] in Hv. injection Hl as Hl. assert (E : zlen a0 = zlen b) by (unfold zlen; lia). rewrite E in Hv.
  pose proof (value_bound a0 Ha2) as B1. pose proof (value_bound b Hb2) as B2. rewrite E in B1.
  assert (a = y) by nia. subst. f_equal. apply IHa; auto. lia.
Qed.
Lemma shows_1 v : is_byte v -> shows (Num 1 v) (w_byte v).
Proof. intros. constructor; [auto|repeat constructor; apply H|]. cbn. lia. Qed.
Lemma shows_2 v : is_u16 v -> shows (Num 2 v) (w_u16 v).
Proof. intros. constructor; [auto|apply bytes_ok_w_u16|]. unfold w_u16, u8, is_u16 in *. cbn. lia. Qed.
Lemma shows_4 v : is_u32 v -> shows (Num 4 v) (w_u32 v).
Proof. intros. constructor; [auto|apply bytes_ok_w_u32|]. unfold w_u32, u8, is_u32 in *. cbn. lia. Qed.
Lemma shows_pad w b : (length b <= w)%nat -> shows (Pad w b) (w_fixed b w).
Proof. intros. rewrite w_fixed_pad by auto. constructor. lia. Qed.
Lemma shows_coord env d : coord_ok d -> shows (coord d) (w_u32 (abs_u32 env (micro d))).
Proof. intros. rewrite abs_u32_ok by auto. apply shows_4, coord_u32, H. Qed.

(** ** Digits *)
Lemma pairs_pack ds : Nat.even (length ds) = true -> digits ds -> bcd_pack (chars ds) = pairs ds.
Proof.
  revert ds. apply (even_ind (fun ds => digits ds -> bcd_pack (chars ds) = pairs ds)); [reflexivity|].
  intros h l t IH H. inversion H as [|? ? Hh H']; subst. inversion H' as [|? ? Hl Ht]; subst.
  cbn [chars map bcd_pack pairs]. fold (chars t). rewrite bcd_byte_digits, IH by auto. reflexivity.
Qed.
Lemma pairs_zeros k : forall ds, pairs (repeat 0 (2 * k) ++ ds) = repeat 0 k ++ pairs ds.
Proof.
  induction k; intros; auto. replace (2 * S k)%nat with (S (S (2 * k))) by lia. cbn [repeat app pairs]. rewrite IHk. reflexivity.
Qed.
Lemma even_pad_len ds : length (even_pad ds) = if Nat.odd (length ds) then S (length ds) else length ds.
Proof. unfold even_pad. destruct (Nat.odd _); auto. Qed.
Lemma bcd_n_pairs ds n : digits ds -> (length ds <= 2 * n)%nat ->
  string_to_bcd_n (chars ds) n = pairs (repeat 0 (2 * n - length ds) ++ ds).
Proof.
  intros Hd Hl. unfold string_to_bcd_n. rewrite string_to_bcd_pack.
  pose proof (bcd_pack_length _ (even_pad_even ds)) as L. pose proof (even_pad_length ds n Hl) as L2.
  rewrite (pairs_pack (even_pad ds)) in * by auto using even_pad_even, even_pad_digits.
  destruct (Nat.ltb_spec n (length (pairs (even_pad ds)))); [lia|].
  rewrite <- pairs_zeros. f_equal. rewrite Nat.mul_sub_distr_l, L. unfold even_pad. destruct (Nat.odd (length ds)) eqn:O.
  - apply Nat.odd_spec in O. destruct O as [q O]. rewrite O in *. cbn [length].
    replace (2 * n - (2 * q + 1))%nat with ((2 * n - S (2 * q + 1)) + 1)%nat by (cbn [length even_pad] in *; rewrite even_pad_len in L2; rewrite O in L2; destruct (Nat.odd (2 * q + 1)) eqn:O'; [lia|]; rewrite <- Nat.negb_even, Nat.add_1_r, Nat.even_succ, <- Nat.negb_even, Nat.even_mul in O'; discriminate).
    rewrite repeat_app, <- app_assoc, O. reflexivity.
  - reflexivity.
Qed.
Lemma digits_of_len n : forall v, length (digits_of n v) = n.
Proof. induction n; intros; cbn [digits_of]; auto. rewrite app_length, IHn. cbn. lia. Qed.
Lemma digits_of_digits n : forall v, digits (digits_of n v).
Proof.
  induction n; intros; cbn [digits_of]; [constructor|]. apply Forall_app. split; [apply IHn|].
  constructor; [|constructor]. unfold is_digit. lia.
Qed.
Lemma digits_of_val n : forall v, 0 <= v < 10 ^ Z.of_nat n -> dval (digits_of n v) = v.
Proof.
  induction n; intros v Hv; cbn [digits_of].
  - change (10 ^ Z.of_nat 0) with 1 in Hv. cbn. lia.
  - rewrite Nat2Z.inj_succ, Z.pow_succ_r in Hv by lia. rewrite dval_app, IHn, dval_single.
    + change (zlen [v mod 10]) with 1. change (10 ^ 1) with 10. lia.
    + lia.
Qed.

(** ** Calendar *)
Lemma leap_eq y : leap y = is_leap y.
Proof. unfold leap, is_leap. destruct (Z.eqb_spec (y mod 4) 0), (Z.eqb_spec (y mod 100) 0), (Z.eqb_spec (y mod 400) 0); cbn; auto; lia. Qed.
Lemma twelve m : 1 <= m <= 12 -> m = 1 \/ m = 2 \/ m = 3 \/ m = 4 \/ m = 5 \/ m = 6 \/ m = 7 \/ m = 8 \/ m = 9 \/ m = 10 \/ m = 11 \/ m = 12.
Proof. lia. Qed.
Ltac months H := let C := fresh "C" in pose proof (twelve _ H) as C; repeat (destruct C as [->|C]); [..|subst].
Lemma days_in_nth m y : 1 <= m <= 12 -> days_in m y = nth (Z.to_nat (m - 1)) (month_days y) 0.
Proof. intros H. unfold month_days. rewrite leap_eq. unfold days_in. pose proof (twelve _ H) as C. repeat (destruct C as [->|C]; [reflexivity|]). subst. reflexivity. Qed.
Definition year_start (y : Z) : Z := 365 * (y - 1970) + ((y - 1) / 4 - (y - 1) / 100 + (y - 1) / 400 - 477).
Definition month_start (y m : Z) : Z := fold_right Z.add 0 (firstn (Z.to_nat (m - 1)) (month_days y)).
Lemma day_number_eq y m d : day_number y m d = year_start y + month_start y m + (d - 1).
Proof. reflexivity. Qed.
Definition b2z (b : bool) : Z := if b then 1 else 0.
Lemma leap_count y : y / 4 - y / 100 + y / 400 = (y - 1) / 4 - (y - 1) / 100 + (y - 1) / 400 + b2z (is_leap y).
Proof.
  unfold is_leap, b2z. destruct (Z.eqb_spec (y mod 4) 0), (Z.eqb_spec (y mod 100) 0), (Z.eqb_spec (y mod 400) 0); cbn; lia.
Qed.
Lemma month_start_eq y m : 1 <= m <= 12 -> month_start y m =
  if m <=? 2 then 31 * (m - 1) else (153 * (m - 3) + 2) / 5 + 59 + b2z (is_leap y).
Proof.
  intros H. unfold month_start, month_days. rewrite leap_eq. pose proof (twelve _ H) as C.
  repeat (destruct C as [->|C]; [destruct (is_leap y); reflexivity|]). subst. destruct (is_leap y); reflexivity.
Qed.
Lemma day_number_civil y m d : 1 <= m <= 12 -> day_number y m d = days_from_civil y m d.
Proof.
  intros H. rewrite day_number_eq, days_linear, month_start_eq by auto. cbv zeta. unfold year_start.
  pose proof (leap_count y). destruct (Z.leb_spec m 2).
  - assert (m = 1 \/ m = 2) as [-> | ->] by lia.
    + change ((153 * ((1 + 9) mod 12) + 2) / 5) with 306. lia.
    + change ((153 * ((2 + 9) mod 12) + 2) / 5) with 337. lia.
  - replace ((m + 9) mod 12) with (m - 3) by lia. lia.
Qed.
Lemma is_date_eq y m d : is_date y m d <-> 1 <= m <= 12 /\ 1 <= d <= days_in m y.
Proof. unfold is_date. split; intros [H1 H2]; split; auto; rewrite days_in_nth in * by auto; auto. Qed.
Ltac cbl := cbn [Z.eqb Z.leb Z.compare Pos.compare Pos.compare_cont Pos.eqb orb b2z] in *.
Lemma in_year y m d : is_date y m d -> 0 <= month_start y m + (d - 1) < 365 + b2z (is_leap y).
Proof.
  rewrite is_date_eq. intros [H1 H2]. rewrite month_start_eq by auto. unfold days_in in H2. pose proof (twelve _ H1) as C.
  revert H2. destruct (is_leap y); cbn [b2z]; intros H2; repeat (destruct C as [->|C]; [cbl; lia|]); subst; cbl; lia.
Qed.
Lemma year_next y : year_start (y + 1) = year_start y + 365 + b2z (is_leap y).
Proof. unfold year_start. replace (y + 1 - 1) with y by lia. pose proof (leap_count y). lia. Qed.
Lemma year_start_mono a b : a <= b -> year_start a <= year_start b.
Proof. intros. pose proof (year_mono (a - 1) (b - 1) ltac:(lia)). unfold year_start. lia. Qed.
Lemma month_start_mono y a b : 1 <= a <= b -> b <= 12 -> month_start y a <= month_start y b.
Proof.
  intros. rewrite !month_start_eq by lia. assert (0 <= b2z (is_leap y) <= 1) by (destruct (is_leap y); cbn; lia).
  assert ((153 * (a - 3) + 2) / 5 <= (153 * (b - 3) + 2) / 5) by (apply Z.div_le_mono; lia).
  destruct (Z.leb_spec a 2), (Z.leb_spec b 2); lia.
Qed.
Lemma month_next y m : 1 <= m < 12 -> month_start y (m + 1) = month_start y m + days_in m y.
Proof.
  intros. rewrite !month_start_eq by lia. unfold days_in. pose proof (twelve m ltac:(lia)) as C.
  destruct (is_leap y); repeat (destruct C as [->|C]; [reflexivity|]); subst; lia.
Qed.
Lemma month_end y m d m' : is_date y m d -> 1 <= m' <= 12 -> m < m' -> month_start y m + (d - 1) < month_start y m'.
Proof.
  rewrite is_date_eq. intros [H1 H2] H3 H4. pose proof (month_next y m ltac:(lia)). pose proof (month_start_mono y (m + 1) m' ltac:(lia) ltac:(lia)). lia.
Qed.
Lemma day_number_inj y m d y' m' d' : is_date y m d -> is_date y' m' d' -> day_number y m d = day_number y' m' d' ->
  y = y' /\ m = m' /\ d = d'.
Proof.
  intros D D' E. rewrite !day_number_eq in E. pose proof (in_year _ _ _ D) as I. pose proof (in_year _ _ _ D') as I'.
  assert (Y : y = y').
  { destruct (Z.lt_trichotomy y y') as [L|[L|L]]; auto; exfalso.
    - pose proof (year_next y). pose proof (year_start_mono (y + 1) y' ltac:(lia)). lia.
    - pose proof (year_next y'). pose proof (year_start_mono (y' + 1) y ltac:(lia)). lia. }
  subst y'. assert (M : m = m').
  { destruct (Z.lt_trichotomy m m') as [L|[L|L]]; auto; exfalso.
    - pose proof (month_end y m d m' D (proj1 D') L). pose proof (proj2 (proj1 (is_date_eq _ _ _) D')). lia.
    - pose proof (month_end y m' d' m D' (proj1 D) L). pose proof (proj2 (proj1 (is_date_eq _ _ _) D)). lia. }
  subst m'. repeat split; lia.
Qed.

(** ** One form per field *)
Lemma shows_unique f a b : shows f a -> shows f b -> a = b.
Proof.
  intros Ha Hb. inversion Ha; subst; inversion Hb; subst; auto.
  - apply value_inj; auto; congruence.
  - do 2 f_equal. lia.
  - assert (hh = hh0 /\ mm = mm0 /\ ss = ss0 /\ day_number y m d = day_number y0 m0 d0) as (-> & -> & -> & E) by lia.
    eapply day_number_inj in E as (-> & -> & ->); [|assumption|assumption]. reflexivity.
  - assert (E : day_number y m d = day_number y0 m0 d0) by lia.
    eapply day_number_inj in E as (-> & -> & ->); [|assumption|assumption]. reflexivity.
Qed.
Lemma on_wire_unique fs : forall a b, on_wire fs a -> on_wire fs b -> a = b.
Proof.
  induction fs; intros x y Hx Hy; inversion Hx; subst; inversion Hy; subst; auto. f_equal; eauto using shows_unique.
Qed.

(** ** Sequences *)
Lemma ow_one f b : shows f b -> on_wire [f] b.
Proof. intros. rewrite <- (app_nil_r b). constructor; auto. constructor. Qed.
Lemma ow_app fs b : forall a c, on_wire fs a -> on_wire b c -> on_wire (fs ++ b) (a ++ c).
Proof.
  induction fs; intros x c H1 H2; inversion H1; subst; auto. cbn [app]. rewrite <- app_assoc. constructor; auto.
Qed.
Lemma ow_map {A} (f : A -> list fld) (g : A -> bytes) (P : A -> Prop) l :
  (forall x, P x -> on_wire (f x) (g x)) -> Forall P l -> on_wire (concat (map f l)) (concat (map g l)).
Proof. intros H. induction 1; cbn; [constructor|]. apply ow_app; auto. Qed.
Lemma ow_mapM {A} (f : A -> list fld) (g : A -> res bytes) (P : A -> Prop) l :
  (forall x, P x -> exists d, g x = Ok d /\ on_wire (f x) d) -> Forall P l ->
  exists ds, mapM g l = Ok ds /\ on_wire (concat (map f l)) (concat ds).
Proof.
  intros H. induction 1 as [|x l Hx Hl IH]; cbn [mapM].
  - exists []. split; [auto|constructor].
  - destruct (H x Hx) as (d & -> & Hd). destruct IH as (ds & -> & Hds). exists (d :: ds). split; [auto|]. cbn. apply ow_app; auto.
Qed.

(** ** Times *)
Lemma shows_time env t : time_ok env t -> shows (stamp env t) (w_time env t).
Proof.
  intros H. unfold time_ok in H. unfold w_time, to_bcd_time, stamp. set (ls := t_sec t + tz_off env) in *.
  pose proof (local_2010 ls H) as Y. destruct (fields_ok ls) as (H1 & H2 & H3 & H4 & H5 & H6).
  pose proof (days_in_le (month_of ls) (year_of ls) H1) as HD.
  rewrite format_datetime_digits by lia.
  destruct (year_digits (year_of ls) ltac:(lia)) as (-> & -> & -> & ->). cbn [app chars map skipn].
  change (string_to_bcd_n _ 6) with (string_to_bcd_n (chars (time_digits ls)) 6).
  rewrite bcd_n_pairs by (try (apply time_digits_ok; lia); cbn; lia).
  rewrite <- H6 at 1. rewrite <- day_number_civil by auto.
  assert (S2 : forall v, 0 <= v < 100 -> digits_of 2 v = [v / 10; v mod 10]).
  { intros. cbn [digits_of app]. replace (v / 10 mod 10) with (v / 10) by lia. reflexivity. }
  assert (E : pairs (repeat 0 (2 * 6 - length (time_digits ls)) ++ time_digits ls) =
    pairs (digits_of 2 (year_of ls - 2000) ++ digits_of 2 (month_of ls) ++ digits_of 2 (day_of ls) ++
           digits_of 2 (hour_of ls) ++ digits_of 2 (minute_of ls) ++ digits_of 2 (second_of ls))).
  { rewrite !S2 by lia. reflexivity. }
  rewrite E. apply ShStamp; try lia. apply is_date_eq. auto.
Qed.
Lemma shows_day env t : date_ok env t -> shows (Day (t_sec t + tz_off env)) (string_to_bcd_n (format_date (t_sec t + t_zone t)) 4).
Proof.
  intros (Hz & Hm & H). rewrite Hz. set (ls := t_sec t + tz_off env) in *.
  assert (Y : 1000 <= year_of ls < 10000).
  { assert (A : days_from_civil 1000 1 1 = -354285) by reflexivity. assert (B : days_from_civil 10000 1 1 = 2932897) by reflexivity.
    apply year_range; rewrite ?A, ?B; lia. }
  destruct (fields_ok ls) as (H1 & H2 & H3 & H4 & H5 & H6).
  pose proof (days_in_le (month_of ls) (year_of ls) H1) as HD.
  rewrite format_date_digits by lia.
  change (_ ++ _ ++ [day_of ls / 10; day_of ls mod 10]) with (date_digits ls).
  rewrite bcd_n_pairs by (try (apply date_digits_ok; lia); cbn; lia).
  assert (hour_of ls = 0 /\ minute_of ls = 0 /\ second_of ls = 0) as (E1 & E2 & E3) by (unfold hour_of, minute_of, second_of; lia).
  rewrite E1, E2, E3 in H6. replace ls with (day_number (year_of ls) (month_of ls) (day_of ls) * 86400) at 1
    by (rewrite day_number_civil by auto; lia).
  assert (E : pairs (repeat 0 (2 * 4 - length (date_digits ls)) ++ date_digits ls) =
    pairs (digits_of 4 (year_of ls) ++ digits_of 2 (month_of ls) ++ digits_of 2 (day_of ls))).
  { unfold date_digits. cbn [digits_of app length repeat Nat.sub Nat.mul Nat.add].
    replace (month_of ls / 10 mod 10) with (month_of ls / 10) by lia. replace (day_of ls / 10 mod 10) with (day_of ls / 10) by lia.
    replace (year_of ls / 10 / 10 / 10 mod 10) with (year_of ls / 1000) by lia. replace (year_of ls / 10 / 10 mod 10) with (year_of ls / 100 mod 10) by lia.
    reflexivity. }
  rewrite E. apply ShDay; [lia|]. apply is_date_eq. auto.
Qed.
