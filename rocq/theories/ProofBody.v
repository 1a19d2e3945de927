(** Positions, areas, extra items, CAN time, lists, repeated encoding, gzip. *)
From Verif Require Import Base LibBase Bits LibBits Bcd LibBcd GoTime LibCalendar LibTime Decimal Env SpecGeo LibDec
  EntTerm EntPlat Registry SpecEntity SpecRange SpecBody LibEntity ProofRound ProofRound2 ProofRound3 LibSafe ProofSafe Demo.

Lemma geo_hemi env d1 d2 f1 f2 : coord_ok d1 -> coord_ok d2 ->
  get_geo_point (abs_u32 env (micro d1)) f1 (abs_u32 env (micro d2)) f2 = Ok (hemi f1 d1, hemi f2 d2).
Proof. intros. rewrite !abs_u32_ok by auto. rewrite get_geo_point_eq by lia. reflexivity. Qed.
Lemma hemi_sign flag d : sign_ok flag d -> hemi flag d = coord6 d.
Proof. apply signed_coord. Qed.
Lemma hemi_sign_iff flag d : hemi flag d = coord6 d <-> sign_ok flag d.
Proof.
  split; [|apply hemi_sign]. unfold hemi, coord6, sign_ok. intros H. injection H as H. destruct flag; lia.
Qed.

(** ** 0x0200 *)
Lemma fixed_hemi env e r : fits_0200 env e ->
  r_0200_fixed env (concat (enc_0200_fixed env e) ++ r) = Ok (arrives_0200 env (bare e), r).
Proof.
  intros (H1 & H2 & H3 & H4 & H7 & H8 & H9 & H10 & _).
  destruct (loc_status_ok e H2 H3 H4) as (S1 & S2 & S3).
  pose proof (abs_u32_u32 env _ H3) as U1. pose proof (abs_u32_u32 env _ H4) as U2.
  unfold r_0200_fixed, enc_0200_fixed. flat. do 4 rstep. rewrite S2, S3.
  erewrite rbind_ok by (apply rlift_ok, geo_hemi; auto). cbv beta iota. do 4 rstep.
  unfold arrives_0200, bare, rret, loc_south, loc_west. cbn [p_alarm p_status p_lat p_lng p_alt p_speed p_dir p_time p_extras map concat].
  rewrite loc_status_eq by auto. reflexivity.
Qed.
Lemma rt_0200_hemi env e : fits_0200 env e -> dec_0200 env (enc_0200 env e) = Ok (arrives_0200 env e, 28).
Proof.
  intros H. unfold dec_0200. pose proof (len_0200 env e) as L. pose proof (zlen_nonneg (enc_extras (p_extras e))).
  replace (_ <? 28) with false by lia. rewrite enc_0200_split. rewrite fixed_hemi by auto.
  rewrite dec_extras_enc; [|apply H|unfold zlen; lia]. cbn [bind].
  rewrite zlen_app, len_0200_fixed. do 2 f_equal; lia.
Qed.
Lemma upd_ok env e : fits_0200 env e -> fits_0200 env (upd_0200 e) /\ loc_south (upd_0200 e) = loc_south e /\ loc_west (upd_0200 e) = loc_west e.
Proof.
  intros H. pose proof H as (H1 & H2 & H3 & H4 & H5). destruct (loc_status_ok e H2 H3 H4) as (S1 & S2 & S3).
  unfold upd_0200, fits_0200, loc_south, loc_west in *. cbn [p_alarm p_status p_lat p_lng p_alt p_speed p_dir p_time p_extras] in *.
  unfold st_south, st_west in *. rewrite getb_testbit in S2, S3 by lia. rewrite S2, S3.
  split; [tauto|].
  split; destruct (Z.testbit (p_status e) 2), (neg6 (p_lat e)), (Z.testbit (p_status e) 3), (neg6 (p_lng e)); reflexivity.
Qed.
Lemma last_dflt {A} (l : list A) : forall x a b, last (x :: l) a = last (x :: l) b.
Proof. induction l as [|y l IH]; intros x a b; [reflexivity|]. change (last (y :: l) a = last (y :: l) b). apply IH. Qed.
Lemma last_cons_dflt {A} (l : list A) x d : last (x :: l) d = last l x.
Proof. destruct l as [|y l]; [reflexivity|]. change (last (y :: l) d = last (y :: l) x). apply last_dflt. Qed.
Lemma reused_ok env cs : forall e, fits_0200 env e -> Forall (fun c => coord_ok (fst c) /\ coord_ok (snd c)) cs ->
  fits_0200 env (reused e cs) /\ loc_south (reused e cs) = any_south e cs /\ loc_west (reused e cs) = any_west e cs /\
  (p_lat (reused e cs), p_lng (reused e cs)) = last cs (p_lat e, p_lng e).
Proof.
  induction cs as [|c cs IH]; intros e He Hc.
  - cbn [reused]. unfold any_south, any_west. cbn [existsb last]. rewrite !orb_false_r. auto.
  - inversion Hc as [|? ? [C1 C2] Hc']; subst. cbn [reused].
    destruct (upd_ok env e He) as (U & _). pose proof He as (E1 & E2 & E3 & E4 & _). destruct (loc_status_ok e E2 E3 E4) as (S1 & S2 & S3).
    assert (F : fits_0200 env (set_coords (upd_0200 e) c)).
    { unfold fits_0200, set_coords, upd_0200 in *. cbn [p_alarm p_status p_lat p_lng p_alt p_speed p_dir p_time p_extras] in *. tauto. }
    destruct (IH _ F Hc') as (I1 & I2 & I3 & I4). split; [exact I1|].
    unfold st_south, st_west in *. rewrite getb_testbit in S2, S3 by lia.
    rewrite I2, I3, I4. unfold any_south, any_west, loc_south, loc_west, set_coords, upd_0200.
    cbn [p_alarm p_status p_lat p_lng p_alt p_speed p_dir p_time p_extras existsb]. rewrite S2, S3. unfold loc_south, loc_west. rewrite !orb_assoc.
    split; auto. split; auto. destruct c as [x y]. cbn [fst snd]. symmetry. apply last_cons_dflt.
Qed.
Lemma reuse_exact env e cs : fits_0200 env e -> Forall (fun c => coord_ok (fst c) /\ coord_ok (snd c)) cs ->
  exists e', dec_0200 env (enc_0200 env (reused e cs)) = Ok (e', 28) /\
  p_lat e' = hemi (any_south e cs) (fst (last cs (p_lat e, p_lng e))) /\
  p_lng e' = hemi (any_west e cs) (snd (last cs (p_lat e, p_lng e))).
Proof.
  intros He Hc. destruct (reused_ok env cs e He Hc) as (I1 & I2 & I3 & I4). eexists. split; [apply rt_0200_hemi; auto|].
  unfold arrives_0200. cbn [p_lat p_lng]. rewrite I2, I3, <- I4. auto.
Qed.
Lemma coordinates env e : fits_0200 env e -> Z.testbit (p_status e) 2 = false -> Z.testbit (p_status e) 3 = false ->
  exists e', dec_0200 env (enc_0200 env e) = Ok (e', 28) /\ p_lat e' = coord6 (p_lat e) /\ p_lng e' = coord6 (p_lng e).
Proof.
  intros He H2 H3. eexists. split; [apply rt_0200_hemi; auto|]. unfold arrives_0200, loc_south, loc_west. cbn [p_lat p_lng]. rewrite H2, H3. cbn [orb].
  split; apply hemi_sign; unfold sign_ok, neg6; [destruct (Z.ltb_spec (trunc6 (p_lat e)) 0)|destruct (Z.ltb_spec (trunc6 (p_lng e)) 0)]; lia.
Qed.

(** ** Areas *)
Lemma rect_hemi env c r : fits_rect env c -> r_rect env (enc_rect env c ++ r) = Ok (arrives_rect env c, r).
Proof.
  intros (H1 & H2 & H3 & H4 & H5 & H6 & H11).
  unfold r_rect, enc_rect. rewrite rect_attr_eq by auto.
  pose proof (attr_u16 _ (neg6 (re_llat c) || neg6 (re_rlat c)) (neg6 (re_llng c) || neg6 (re_rlng c)) H2).
  pose proof (abs_u32_u32 env _ H3). pose proof (abs_u32_u32 env _ H4). pose proof (abs_u32_u32 env _ H5). pose proof (abs_u32_u32 env _ H6).
  flat. do 6 rstep. rewrite attr_south, attr_west, attr_timed by auto. rewrite !orb_assoc. fold (re_south c) (re_west c).
  erewrite rbind_ok by (apply rlift_ok, geo_hemi; auto). cbv beta iota.
  erewrite rbind_ok by (apply rlift_ok, geo_hemi; auto). cbv beta iota.
  rewrite app_nil_l. erewrite rbind_ok by (apply r_limits_w; auto).
  unfold rret, arrives_rect, two_marks. rewrite !orb_assoc. reflexivity.
Qed.
Lemma rt_8602_hemi env e : is_byte (a8602_action e) -> 1 <= zlen (a8602_items e) <= 255 -> Forall (fits_rect env) (a8602_items e) ->
  dec_8602 env (enc_8602 env e) = Ok (T8602 (a8602_action e) (map (arrives_rect env) (a8602_items e)), zlen (enc_8602 env e)).
Proof.
  intros ? Hn Hl. unfold dec_8602, enc_8602. cbn [concat].
  assert (L : forall c, fits_rect env c -> 22 <= zlen (enc_rect env c)) by (intros; unfold enc_rect; sizes; lia).
  pose proof (concat_len (enc_rect env) _ 22 _ ltac:(lia) L Hl).
  chk. rc. rewrite (u8_len _ 255) by lia. do 2 rstep.
  erewrite rbind_ok by (eapply r_list_n; [intros; apply rect_hemi; eassumption|exact Hl|auto]). fin.
Qed.
Lemma rt_8604_hemi env e : fits_8604 env e -> dec_8604 env (enc_8604 env e) = Ok (arrives_8604 env e, zlen (enc_8604 env e)).
Proof.
  intros (H1 & H2 & H3 & H4 & H5). unfold dec_8604, enc_8604. rewrite poly_attr_eq.
  pose proof (attr_u16 _ (existsb (fun v => dcoef (vx_lat v) <? 0) (a8604_vs e)) (existsb (fun v => dcoef (vx_lng v) <? 0) (a8604_vs e)) H2).
  assert (L : forall v, coord_ok (vx_lat v) /\ coord_ok (vx_lng v) -> 8 <= zlen (enc_vertex env v)) by (intros; unfold enc_vertex; sizes; lia).
  pose proof (concat_len (enc_vertex env) _ 8 _ ltac:(lia) L H5).
  rewrite attr_timed by auto. cbn [concat]. pose proof (len_limits env (a8604_attr e) (a8604_lim e)).
  replace (zlen _ <? 16) with false by (symmetry; apply Z.ltb_ge; sizes; lia).
  rc. rewrite (u16_len _ 65535) by lia. pose proof (u16_len_ok (a8604_vs e) 65535 ltac:(lia) ltac:(lia)).
  do 2 rstep. rewrite attr_timed by auto. erewrite rbind_ok by (apply r_limits_w; auto). rstep.
  erewrite rbind_ok.
  2:{ eapply r_list_n; [|exact H5|auto]. intros v r (V1 & V2). unfold r_vertex, enc_vertex.
      pose proof (abs_u32_u32 env _ V1). pose proof (abs_u32_u32 env _ V2). rewrite <- app_assoc. do 2 rstep.
      rewrite attr_south, attr_west by auto. fold (vs_south e) (vs_west e).
      erewrite rbind_ok by (apply rlift_ok, geo_hemi; auto).
      change (rret (Vertex (hemi (vs_south e) (vx_lat v)) (hemi (vs_west e) (vx_lng v))) r) with
        (Ok ((fun v => Vertex (hemi (vs_south e) (vx_lat v)) (hemi (vs_west e) (vx_lng v))) v, r)). reflexivity. }
  fin.
Qed.
