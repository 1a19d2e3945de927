(** Coordinates. *)
From Verif Require Import Base LibBase Decimal GoTime Env SpecGeo LibCalendar LibTime.

Lemma trunc6_abs d n : trunc6 d = n ->
  (0 <= dexp d + 6 -> n = dcoef d * 10 ^ (dexp d + 6)) /\
  (dexp d + 6 < 0 ->
     Z.abs n * 10 ^ (- (dexp d + 6)) <= Z.abs (dcoef d) < (Z.abs n + 1) * 10 ^ (- (dexp d + 6)) /\
     0 <= n * dcoef d).
Proof.
  intros <-. unfold trunc6. split; intros.
  - replace (0 <=? dexp d + 6) with true by lia. auto.
  - replace (0 <=? dexp d + 6) with false by lia.
    set (k := 10 ^ (- (dexp d + 6))). assert (0 < k) by (apply Z.pow_pos_nonneg; lia).
    assert (Hq : 0 <= Z.abs (dcoef d)) by lia.
    assert (A : Z.abs (Z.quot (dcoef d) k) = Z.quot (Z.abs (dcoef d)) k)
      by (rewrite <- (Z.quot_abs (dcoef d) k), (Z.abs_eq k) by lia; auto).
    pose proof (Z.quot_rem' (Z.abs (dcoef d)) k) as E. pose proof (Z.rem_bound_pos (Z.abs (dcoef d)) k Hq H0).
    split.
    + rewrite A. nia.
    + destruct (Z.le_ge_cases 0 (dcoef d)).
      * apply Z.mul_nonneg_nonneg; auto. apply Z.quot_pos; lia.
      * assert (Z.quot (dcoef d) k <= 0).
        { replace (dcoef d) with (- - dcoef d) by lia. rewrite Z.quot_opp_l by lia.
          pose proof (Z.quot_pos (- dcoef d) k). lia. }
        nia.
Qed.

Lemma int64_small n : - 9223372036854775808 <= n < 9223372036854775808 -> int64 n = n.
Proof. intros. unfold int64. lia. Qed.
Lemma rescale_micro d : dcoef (rescale (dmul d dec_million) 0) = trunc6 d.
Proof.
  unfold rescale, dmul, dec_million, trunc6. cbn [dcoef dexp]. rewrite Z.mul_1_r.
  destruct (Z.eqb_spec (dexp d + 6) 0).
  - rewrite e. cbn [dcoef Z.leb Z.compare Z.pow]. lia.
  - destruct (Z.eqb_spec (dcoef d) 0).
    + rewrite e. destruct (Z.leb_spec 0 (dexp d + 6)) as [L|L]; [rewrite Z.mul_0_l; auto|].
      rewrite Z.quot_0_l; auto. apply Z.pow_nonzero; lia.
    + destruct (Z.ltb_spec (dexp d + 6) 0).
      * replace (0 <=? dexp d + 6) with false by lia. cbn [dcoef]. rewrite Z.sub_0_l. auto.
      * replace (0 <=? dexp d + 6) with true by lia. cbn [dcoef]. rewrite Z.sub_0_r. auto.
Qed.
Lemma micro_trunc6 d : coord_ok d -> micro d = trunc6 d.
Proof.
  intros H. unfold micro, int_part. rewrite rescale_micro. apply int64_small. unfold coord_ok in H. lia.
Qed.
Lemma abs_u32_ok env d : coord_ok d -> abs_u32 env (micro d) = Z.abs (trunc6 d).
Proof.
  intros H. unfold abs_u32. rewrite micro_trunc6 by auto. unfold coord_ok in H.
  replace (_ <? _) with true by lia. auto.
Qed.
Lemma coord_u32 d : coord_ok d -> is_u32 (Z.abs (trunc6 d)).
Proof. unfold coord_ok, is_u32. lia. Qed.

Lemma ddiv_million n : 0 <= n -> ddiv (dec_int n) dec_million = Ok (Dec (n * 10 ^ 10) (-16)).
Proof.
  intros. unfold ddiv, dec_int, dec_million. cbn [dcoef dexp].
  change (1 =? 0) with false. cbv iota zeta. change (0 - 6 - -16) with 10. change (10 <? 0) with false. cbv iota.
  rewrite Z.quot_1_r, Z.rem_1_r. reflexivity.
Qed.
Lemma truncate_10 n : truncate (Dec (n * 10 ^ 10) (-16)) 6 = Dec n (-6).
Proof.
  unfold truncate, rescale. cbn [dcoef dexp]. change ((0 <=? 6) && (-16 <? - (6))) with true. cbv iota.
  change (-16 =? - (6)) with false. change (-16 <? -(6)) with true. cbv iota.
  destruct (Z.eqb_spec (n * 10 ^ 10) 0).
  - f_equal. lia.
  - change (10 ^ (- (6) - -16)) with (10 ^ 10). rewrite Z.quot_mul by (vm_compute; discriminate). auto.
Qed.
Lemma geo_coord_eq n neg : 0 <= n -> geo_coord n neg = Ok (Dec (if neg then - n else n) (-6)).
Proof.
  intros. unfold geo_coord. rewrite ddiv_million by auto. cbn [bind]. f_equal. destruct neg.
  - replace (dsub dec_zero (Dec (n * 10 ^ 10) (-16))) with (Dec (- n * 10 ^ 10) (-16)); [apply truncate_10|].
    unfold dsub, dec_zero. cbn [dcoef dexp]. change (Z.min 1 (-16)) with (-16). f_equal.
    unfold rescale. cbn [dcoef dexp]. change (1 =? -16) with false. change (0 =? 0) with true.
    change (-16 =? -16) with true. cbn [dcoef]. lia.
  - apply truncate_10.
Qed.
Lemma get_geo_point_eq a s b w : 0 <= a -> 0 <= b ->
  get_geo_point a s b w = Ok (Dec (if s then - a else a) (-6), Dec (if w then - b else b) (-6)).
Proof. intros. unfold get_geo_point. rewrite !geo_coord_eq by auto. reflexivity. Qed.

Lemma signed_coord flag d : sign_ok flag d ->
  Dec (if flag then - Z.abs (trunc6 d) else Z.abs (trunc6 d)) (-6) = coord6 d.
Proof. unfold sign_ok, coord6. intros. f_equal. destruct flag; lia. Qed.
Lemma geo_sent env d1 d2 f1 f2 : coord_ok d1 -> coord_ok d2 -> sign_ok f1 d1 -> sign_ok f2 d2 ->
  get_geo_point (abs_u32 env (micro d1)) f1 (abs_u32 env (micro d2)) f2 = Ok (coord6 d1, coord6 d2).
Proof.
  intros. rewrite !abs_u32_ok by auto. rewrite get_geo_point_eq by lia. rewrite !signed_coord by auto. auto.
Qed.

Lemma trunc6_sign d : (0 <= dcoef d -> 0 <= trunc6 d) /\ (dcoef d <= 0 -> trunc6 d <= 0).
Proof.
  unfold trunc6. destruct (Z.leb_spec 0 (dexp d + 6)).
  - pose proof (Z.pow_pos_nonneg 10 (dexp d + 6)). nia.
  - pose proof (Z.pow_pos_nonneg 10 (- (dexp d + 6))). split; intros.
    + apply Z.quot_pos; lia.
    + replace (dcoef d) with (- - dcoef d) by lia. rewrite Z.quot_opp_l by lia.
      pose proof (Z.quot_pos (- dcoef d) (10 ^ (- (dexp d + 6)))). lia.
Qed.
(** Comparing a coordinate with zero. *)
Lemma dlt_zero d : dlt (dmul d dec_million) dec_zero = (dcoef d <? 0).
Proof.
  unfold dlt, dmul, dec_million, dec_zero. cbn [dcoef dexp]. rewrite Z.mul_1_r.
  set (x := dexp d + 6). set (e := Z.min x 1).
  assert (Z0 : dcoef (rescale (Dec 0 1) e) = 0).
  { unfold rescale. cbn [dcoef dexp]. destruct (1 =? e); auto. }
  rewrite Z0. unfold rescale. cbn [dcoef dexp]. destruct (Z.eqb_spec x e); auto.
  destruct (Z.eqb_spec (dcoef d) 0) as [E|]; [rewrite E; auto|].
  replace (x <? e) with false by lia. cbn [dcoef].
  assert (0 < 10 ^ (x - e)) by (apply Z.pow_pos_nonneg; lia). nia.
Qed.
(** ** Times *)
Lemma r_time_w env t r : time_ok env t -> r_time env (w_time env t ++ r) = Ok (time_sent env t, r).
Proof.
  intros H. unfold r_time, w_time. erewrite rbind_ok.
  2:{ apply r_bytes_app. unfold zlen. rewrite to_bcd_time_len. reflexivity. }
  unfold rlift. rewrite bcd_time_roundtrip; [reflexivity|]. apply local_2010. exact H.
Qed.
Lemma zlen_w_time env t : zlen (w_time env t) = 6.
Proof. unfold zlen, w_time. rewrite to_bcd_time_len. reflexivity. Qed.
