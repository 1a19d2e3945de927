(** Every decoder is safe: no panic, decoded values in range, count within the input. *)
From Verif Require Import Base LibBase Bits LibBits Bcd LibBcd GoTime LibCalendar LibTime Decimal Env SpecGeo LibDec
  EntTerm EntPlat Registry SpecEntity SpecRange LibEntity LibSafe.

Ltac rng := first [assumption | unfold is_byte, is_u16, is_u32 in *; lia].
Ltac gread0 :=
  match goal with
  | |- rgood _ _ _ r_byte => apply g_byte
  | |- rgood _ _ _ r_u16 => apply g_u16
  | |- rgood _ _ _ r_u32 => apply g_u32
  | |- rgood _ _ _ r_all => apply g_all
  | |- rgood _ _ _ (r_bytes _) => apply g_bytes; rng
  | |- rgood _ _ _ (r_str_n _ _) => apply g_str_n; rng
  | |- rgood _ _ _ (r_str _) => apply g_str
  | |- rgood _ _ _ (r_str_opt _) => apply g_str_opt
  | |- rgood _ _ _ (r_time _) => apply g_time
  | |- rgood _ _ _ (rlift (get_geo_point _ _ _ _)) => apply g_geo; assumption
  end.
Ltac gitem := fail.
Ltac gread :=
  first [ gread0
        | match goal with
          | H : is_byte ?n |- rgood _ _ _ (r_list (Z.to_nat ?n) _) => apply g_list8; [exact H|gread]
          | H : is_u16 ?n |- rgood _ _ _ (r_list (Z.to_nat ?n) _) => apply g_list16; [exact H|gread]
          end
        | gitem ].
Ltac gnext := intros ? ?; cbv beta in *;
  repeat match goal with H : _ /\ _ |- _ => destruct H end;
  try match goal with |- rgood _ _ _ (match ?x with (_, _) => _ end) => destruct x; cbn [fst snd] in * end.
Ltac gstep := eapply g_bind; [gread|gnext].
Ltac gfin := apply g_ret; cbv beta.
Ltac gall := repeat gstep; try gfin.

Ltac sp := repeat match goal with |- _ /\ _ => split end; try rng.
Ltac dfin := gfin; unfold decoded_ok; sp; auto.

(** ** Items *)
Section S.
Context (env : Env) (m : Z).
Lemma g_param : rgood env m dec_param r_param.
Proof. unfold r_param. gall. unfold dec_param, wf_param. cbn [pr_id pr_val]. sp. Qed.
Lemma g_0200_fixed : rgood env m (fun e => dec_loc env e /\ p_extras e = []) (r_0200_fixed env).
Proof.
  unfold r_0200_fixed, st_south, st_west. gall. unfold dec_loc.
  cbn [p_alarm p_status p_lat p_lng p_alt p_speed p_dir p_time p_extras]. rewrite !getb_testbit in * by lia. sp; auto.
Qed.
Lemma g_can : rgood env m wf_can r_can.
Proof. unfold r_can. gall. unfold wf_can. cbn [can_id can_data]. sp. Qed.
Lemma g_0800 : rgood env m wf_0800 r_0800.
Proof. unfold r_0800. gall. unfold wf_0800. cbn. sp. Qed.
Lemma g_labelled : rgood env m dec_labelled (r_labelled env).
Proof. unfold r_labelled. gall. unfold dec_labelled. cbn. sp. Qed.
Lemma g_8303_item : rgood env m no_nul (r_8303_item env).
Proof. unfold r_8303_item. gstep. gread. Qed.
Lemma g_contact : rgood env m dec_contact (r_contact env).
Proof. unfold r_contact. gall. unfold dec_contact. cbn. sp. Qed.
Lemma g_limits attr : rgood env m (dec_limits env attr) (r_limits_if env (at_timed attr)).
Proof.
  unfold r_limits_if, dec_limits. rewrite at_timed_bit. destruct (Z.testbit attr 0).
  - unfold r_limits. gall. cbn [lm_start lm_end lm_speed lm_dur]. sp.
  - gfin. auto.
Qed.
Lemma g_circle : rgood env m (dec_circle env) (r_circle env).
Proof.
  unfold r_circle, at_south, at_west. do 6 gstep. eapply g_bind; [apply g_limits|gnext]. gfin. unfold dec_circle.
  cbn [ci_id ci_attr ci_lat ci_lng ci_radius ci_lim]. rewrite !getb_testbit in * by lia. sp.
Qed.
Lemma g_rect : rgood env m (dec_rect env) (r_rect env).
Proof.
  unfold r_rect, at_south, at_west. do 8 gstep. eapply g_bind; [apply g_limits|gnext]. gfin. unfold dec_rect.
  cbn [re_id re_attr re_llat re_llng re_rlat re_rlng re_lim]. rewrite !getb_testbit in * by lia. sp.
Qed.
Lemma g_vertex attr : rgood env m (dec_vertex attr) (r_vertex attr).
Proof.
  unfold r_vertex, at_south, at_west. gall. unfold dec_vertex. cbn [vx_lat vx_lng]. rewrite !getb_testbit in * by lia. sp.
Qed.
Lemma g_two16 b : rgood env m (fun p => wf_pair (fst p) (snd p) is_u16 is_u16 /\ present (fst p) = b) (r_two16 b).
Proof. unfold r_two16. destruct b; gall; cbn; auto. Qed.
Lemma g_speed b : rgood env m (fun p => wf_pair (fst p) (snd p) is_u16 is_byte /\ present (fst p) = b) (r_speed b).
Proof. unfold r_speed. destruct b; gall; cbn; auto. Qed.
Lemma g_point : rgood env m dec_point r_point.
Proof.
  unfold r_point. do 7 gstep. eapply g_bind; [apply g_two16|gnext]. eapply g_bind; [apply g_speed|gnext]. gfin. unfold dec_point.
  cbn [pt_id pt_sec pt_lat pt_lng pt_width pt_attr pt_long pt_short pt_speed pt_over]. rewrite !getb_testbit in * by lia. sp.
Qed.
Lemma g_8802 : rgood env m (dec_search env) (r_8802 env).
Proof. unfold r_8802. gall. unfold dec_search. cbn [a8802_type a8802_chan a8802_event a8802_start a8802_end]. sp. Qed.

(** ** Position reports *)
Lemma be32_ok a b c d : is_byte a -> is_byte b -> is_byte c -> is_byte d -> is_u32 (be32 a b c d).
Proof. unfold is_byte, is_u32, be32. lia. Qed.
Lemma be16_ok a b : is_byte a -> is_byte b -> is_u16 (be16 a b).
Proof. unfold is_byte, is_u16, be16. lia. Qed.
Lemma extra_decode_ok typ d : bytes_ok d ->
  match extra_decode typ d with Ok (v, n) => extra_val_ok v | Err e => e = ErrTypeNotRegistered \/ e = ErrInvalidExtraLength | Panic => False end.
Proof.
  intros H. unfold extra_decode.
  repeat match goal with |- context [if typ =? ?k then _ else _] => destruct (typ =? k) end; auto;
  unfold dec_x32, dec_x16, dec_x8, dec_x11, dec_x12, dec_x13;
  repeat match goal with
  | |- match (match ?l with [] => _ | _ => _ end) with _ => _ end => destruct l; [auto; fail|]
  | |- match (if ?x =? 0 then _ else _) with _ => _ end => destruct (Z.eqb_spec x 0)
  | H : bytes_ok (_ :: _) |- _ => apply bytes_ok_cons in H; destruct H
  end; cbn [extra_val_ok]; auto using be32_ok, be16_ok.
  - subst. split; auto.
  - split; auto. right. split; auto. eexists. split; auto using be32_ok.
Qed.
Lemma dec_extras_ok fuel : forall buf, bytes_ok buf -> (length buf < fuel)%nat -> good env (Forall dec_extra) (dec_extras fuel buf).
Proof.
  induction fuel as [|f IH]; intros buf Hb Hf; [lia|]. cbn [dec_extras]. destruct buf as [|id [|len rest]]; try (cbn; constructor).
  apply bytes_ok_cons in Hb. destruct Hb as [_ Hb]. apply bytes_ok_cons in Hb. destruct Hb as [Hlen Hb].
  destruct (zlen rest <? len); [cbn; gerr|]. cbv zeta.
  pose proof (extra_decode_ok id (firstn (Z.to_nat len) rest) (bytes_ok_firstn _ _ Hb)) as E.
  assert (G : good env (Forall dec_extra) (dec_extras f (skipn (Z.to_nat len) rest))).
  { apply IH; [apply bytes_ok_skipn; auto|]. rewrite skipn_length. cbn [length] in Hf. lia. }
  destruct (extra_decode id _) as [[v n]|e|]; auto.
  - destruct (negb _); [cbn; gerr|]. destruct (dec_extras f _); auto. cbn in *. constructor; auto. cbn. auto.
  - destruct E as [-> | ->]; [exact G|cbn; gerr].
Qed.
Definition rsize {A} (n : Z) (p : R A) : Prop := forall l a l', p l = Ok (a, l') -> zlen l = n + zlen l'.
Lemma z_bind {A B} i n (p : R A) (k : A -> R B) : rsize i p -> (forall a, rsize (n - i) (k a)) -> rsize n (rbind p k).
Proof.
  intros H1 H2 l b l'. unfold rbind. destruct (p l) as [[a l1]|e|] eqn:E; try discriminate. intros E2.
  apply H1 in E. apply H2 in E2. lia.
Qed.
Lemma z_byte : rsize 1 r_byte.
Proof. intros [|x l] a l'; unfold r_byte; [discriminate|]. intros E. injection E as <- <-. rewrite !zlen_cons. lia. Qed.
Lemma z_u16 : rsize 2 r_u16.
Proof. intros [|x [|y l]] a l'; unfold r_u16; try discriminate. intros E. injection E as <- <-. rewrite !zlen_cons. lia. Qed.
Lemma z_u32 : rsize 4 r_u32.
Proof. intros [|x [|y [|z [|w l]]]] a l'; unfold r_u32; try discriminate. intros E. injection E as <- <-. rewrite !zlen_cons. lia. Qed.
Lemma z_lift {A} (r : res A) : rsize 0 (rlift r).
Proof. intros l a l'. unfold rlift. destruct r; try discriminate. intros E. injection E as _ <-. lia. Qed.
Lemma z_ret {A} (a : A) : rsize 0 (rret a).
Proof. intros l x l' E. injection E as _ <-. lia. Qed.
Lemma z_bytes n : 0 <= n -> rsize n (r_bytes n).
Proof.
  intros Hn l a l'. unfold r_bytes. destruct (Z.ltb_spec (zlen l) n); [discriminate|]. replace (n <? 0) with false by lia.
  intros E. injection E as <- <-. unfold zlen in *. rewrite skipn_length. lia.
Qed.
Lemma z_time : rsize 6 (r_time env).
Proof. eapply z_bind; [apply z_bytes; lia|intros; apply z_lift]. Qed.
Lemma z_0200 : rsize 28 (r_0200_fixed env).
Proof.
  unfold r_0200_fixed. do 4 (eapply z_bind; [apply z_u32|intros]). eapply z_bind; [apply z_lift|intros [la lo]].
  do 3 (eapply z_bind; [apply z_u16|intros]). eapply z_bind; [apply z_time|intros; apply z_ret].
Qed.
Lemma dec_extras_nil f : dec_extras (S f) [] = Ok [].
Proof. reflexivity. Qed.
End S.
Lemma s_0200 env data : bytes_ok data ->
  match dec_0200 env data with Ok (a, n) => dec_loc env a /\ n = 28 /\ 28 <= zlen data /\ (zlen data = 28 -> p_extras a = [])
  | Err e => good_err env e | Panic => False end.
Proof.
  intros H. unfold dec_0200. destruct (Z.ltb_spec (zlen data) 28) as [|L]; [gerr|].
  pose proof (g_0200_fixed env (zlen data) data H ltac:(lia)) as G.
  destruct (r_0200_fixed env data) as [[a l']|e|] eqn:E; auto.
  destruct G as ([Ha Hx] & pre & -> & _). apply (z_0200 env) in E. apply bytes_ok_app in H. destruct H as [_ H].
  pose proof (dec_extras_ok env (S (length l')) l' H ltac:(lia)) as X.
  destruct (dec_extras _ l') as [xs|e|] eqn:EX; auto. cbn [bind good] in *.
  split; [|split; [lia|split; [auto|]]].
  - destruct Ha as (A1 & A2 & A3 & A4 & A5 & A6 & A7 & A8 & A9). unfold dec_loc, with_extras. cbn [p_alarm p_status p_lat p_lng p_alt p_speed p_dir p_time p_extras]. sp; auto.
  - intros L2. assert (l' = []) by (apply zlen_0; lia). subst l'. rewrite dec_extras_nil in EX. injection EX as <-. auto.
Qed.
Lemma g_0200_of env m buf : bytes_ok buf -> rgood env m (fun a => dec_loc env a /\ (zlen buf = 28 -> p_extras a = [])) (r_0200_of env buf).
Proof.
  intros H. unfold r_0200_of. apply g_lift. pose proof (s_0200 env buf H) as S. destruct (dec_0200 env buf) as [[a n]|e|]; cbn; tauto.
Qed.
Lemma g_0704_item env m : rgood env m (dec_loc env) (r_0704_item env).
Proof. unfold r_0704_item. do 2 gstep. eapply g_weaken; [|apply g_0200_of; auto]. intros b Hb; apply Hb. Qed.
Lemma g_0802_item env m : rgood env m (dec_item env) (r_0802_item env).
Proof.
  unfold r_0802_item. do 5 gstep. eapply g_bind; [apply g_0200_of; auto|gnext]. gfin. unfold dec_item.
  cbn [i0802_media i0802_type i0802_chan i0802_event i0802_loc]. sp.
Qed.
Ltac gitem ::= first [apply g_param | apply g_can | apply g_0800 | apply g_labelled | apply g_8303_item | apply g_contact | apply g_limits
  | apply g_circle | apply g_rect | apply g_vertex | apply g_point | apply g_8802 | apply g_0704_item | apply g_0802_item].

Lemma dgood_ext {A} env (Q : A -> Prop) f g : (forall d, f d = g d) -> dgood env Q f -> dgood env Q g.
Proof.
  intros E H d Hd. specialize (H d Hd). rewrite <- E. destruct (f d) as [[a n]|e|]; auto.
  destruct H as (H1 & H2 & H3). split; auto. split; auto. intros. rewrite <- E. auto.
Qed.
Lemma dgood_safe {A} env (Q : A -> Prop) f : dgood env Q f -> dsafe env Q f.
Proof. intros H d Hd. specialize (H d Hd). destruct (f d) as [[a n]|e|]; tauto. Qed.
Ltac drun := match goal with
  | |- dgood _ _ (fun d => if zlen d <? ?k then _ else _) => apply (d_run _ _ _ (fun z => z <? k)); [discriminate|discriminate|intros m]
  | |- dgood _ _ (fun d => if zlen d <=? ?k then _ else _) => apply (d_run _ _ _ (fun z => z <=? k)); [discriminate|discriminate|intros m]
  | |- dgood _ _ (fun d => if zlen d =? ?k then _ else _) => apply (d_run _ _ _ (fun z => z =? k)); [discriminate|discriminate|intros m]
  end.
Ltac dgo f := unfold f; drun; gall; cbv beta iota delta [decoded_ok]; sp; auto.

Section D.
Context (env : Env).
Notation ok c := (fun x => decoded_ok env (c x)).
Lemma s_0001 : dgood env (ok E0001) dec_0001. Proof. dgo dec_0001. Qed.
Lemma s_0102 : dgood env (ok E0102) (dec_0102 env). Proof. dgo dec_0102. Qed.
Lemma s_0104 : dgood env (ok E0104) dec_0104. Proof. dgo dec_0104. Qed.
Lemma s_0302 : dgood env (ok E0302) dec_0302. Proof. dgo dec_0302. Qed.
Lemma s_0700 : dgood env (ok E0700) dec_0700. Proof. dgo dec_0700. Qed.
Lemma s_0701 : dgood env (ok E0701) dec_0701. Proof. dgo dec_0701. Qed.
Lemma s_0805 : dgood env (ok E0805) dec_0805. Proof. dgo dec_0805. Qed.
Lemma s_8001 : dgood env (ok E8001) dec_8001. Proof. dgo dec_8001. Qed.
Lemma s_8003 : dgood env (ok E8003) dec_8003. Proof. dgo dec_8003. Qed.
Lemma s_8100 : dgood env (ok E8100) (dec_8100 env). Proof. dgo dec_8100. Qed.
Lemma s_8103 : dgood env (ok E8103) dec_8103. Proof. dgo dec_8103. Qed.
Lemma s_8202 : dgood env (ok E8202) dec_8202. Proof. dgo dec_8202. Qed.
Lemma s_8203 : dgood env (ok E8203) dec_8202. Proof. exact s_8202. Qed.
Lemma s_8301 : dgood env (ok E8301) (dec_8301 env). Proof. dgo dec_8301. Qed.
Lemma s_8303 : dgood env (ok E8303) (dec_8303 env). Proof. dgo dec_8303. Qed.
Lemma s_8304 : dgood env (ok E8304) (dec_8304 env). Proof. dgo dec_8304. Qed.
Lemma s_8400 : dgood env (ok E8400) (dec_8400 env). Proof. dgo dec_8400. Qed.
Lemma s_8401 : dgood env (ok E8401) (dec_8401 env). Proof. dgo dec_8401. Qed.
Lemma s_8600 : dgood env (ok E8600) (dec_8600 env). Proof. dgo dec_8600. Qed.
Lemma s_8602 : dgood env (ok E8602) (dec_8602 env). Proof. dgo dec_8602. Qed.
Lemma s_8604 : dgood env (ok E8604) (dec_8604 env). Proof. dgo dec_8604. Qed.
Lemma s_8606 : dgood env (ok E8606) (dec_8606 env). Proof. dgo dec_8606. Qed.
Lemma s_8801 : dgood env (ok E8801) dec_8801. Proof. dgo dec_8801. Qed.
Lemma s_8803 : dgood env (ok E8803) (dec_8803 env). Proof. dgo dec_8803. Qed.
Lemma s_8804 : dgood env (ok E8804) dec_8804. Proof. dgo dec_8804. Qed.
Lemma s_8805 : dgood env (ok E8805) dec_8805. Proof. dgo dec_8805. Qed.
Lemma s_0704 : dgood env (ok E0704) (dec_0704 env). Proof. dgo dec_0704. Qed.
Lemma s_0802 : dgood env (ok E0802) (dec_0802 env). Proof. dgo dec_0802. Qed.
Lemma s_8607 : dgood env (ok E8607) dec_8607. Proof. dgo dec_8607. Qed.
Lemma s_0800 : dgood env (ok E0800) dec_0800. Proof. unfold dec_0800. drun. apply g_0800. Qed.
Lemma s_8802 : dgood env (ok E8802) (dec_8802 env). Proof. unfold dec_8802. drun. apply g_8802. Qed.
Lemma s_0100 : dgood env (ok E0100) (dec_0100 env).
Proof.
  unfold dec_0100. drun. gall. cbv beta iota delta [decoded_ok].
  cbn [a0100_province a0100_city a0100_manu a0100_model a0100_term a0100_color a0100_license]. sp; apply fixed_cstr_ok; auto; lia.
Qed.
Lemma zlen_dropzc s : zlen (dropzc s) <= zlen s.
Proof. pose proof (length_dropzc s). unfold zlen. lia. Qed.
Lemma zlen_unpack s : zlen (bcd_unpack s) = 2 * zlen s.
Proof. unfold zlen. rewrite length_bcd_unpack. lia. Qed.
Lemma s_0107 : dgood env (ok E0107) dec_0107.
Proof.
  unfold dec_0107. drun. gall. cbv beta iota delta [decoded_ok].
  cbn [a0107_type a0107_manu a0107_model a0107_term a0107_sim a0107_hw a0107_sw a0107_gnss a0107_comm].
  sp; try (apply fixed_cstr_ok; auto; unfold is_byte in *; lia).
  rewrite bcd_to_string_dropzc by auto. pose proof (zlen_dropzc (bcd_unpack a3)). rewrite zlen_unpack in *. lia.
Qed.
Lemma s_8108 : dgood env (ok E8108) (dec_8108 env).
Proof.
  unfold dec_8108. drun. gall. cbv beta iota delta [decoded_ok].
  cbn [a8108_type a8108_manu a8108_ver a8108_size a8108_data]. sp. apply fixed_cstr_ok; auto; lia.
Qed.
Lemma dropzc_head_date b : bytes_ok b -> forall ex, parse_datetime (tz_off env) (bcd_to_string b ++ repeat 48 6) = Ok ex ->
  date_ok env ex /\ t_nsec ex = 0.
Proof.
  intros Hb ex H. rewrite bcd_to_string_dropzc in H by auto. set (s := dropzc (bcd_unpack b)) in *.
  destruct (parse_inv _ _ _ H) as (y & mo & d & h & mi & sec & Ey & Hm & Hd & Hh & Hmi & Hs & L & E1 & E2 & E3 & E).
  rewrite zlen_app, zlen_repeat in L.
  assert (Hz : exists c t, s = c :: t /\ c <> 48).
  { destruct s as [|c t] eqn:Es; [cbn in L; lia|]. exists c, t. split; auto. eapply dropzc_head. unfold s in Es. exact Es. }
  assert (Ln : length s = 8%nat) by (unfold zlen in L; lia). clearbody s.
  destruct s as [|c0 [|c1 [|c2 [|c3 [|c4 [|c5 [|c6 [|c7 [|]]]]]]]]]; try discriminate Ln. cbn [app firstn skipn repeat] in *.
  destruct Hz as (c & t & Ec & Hc). injection Ec as -> _.
  injection E1 as <-. injection E2 as <-. injection E3 as <-.
  apply num_of_inv in Ey. destruct Ey as (ds & Hds & Eds & ->). destruct ds as [|d1 [|d2 [|d3 [|d4 [|]]]]]; try discriminate Eds.
  cbn [chars map] in Eds. injection Eds as -> -> -> ->. unfold digits in Hds. rewrite Forall_forall in Hds.
  pose proof (Hds d1 ltac:(cbn; auto)). pose proof (Hds d2 ltac:(cbn; auto)). pose proof (Hds d3 ltac:(cbn; auto)). pose proof (Hds d4 ltac:(cbn; auto)).
  unfold is_digit in *. cbn [fold_left] in *. set (y := ((((0 * 10 + d1) * 10 + d2) * 10 + d3) * 10 + d4)) in *.
  assert (Hy : 1000 <= y < 10000) by (unfold y; lia). clearbody y.
  pose proof (year_days y mo d 1000 Hm Hd ltac:(lia)) as D1. pose proof (year_days_u y mo d 10000 Hm Hd ltac:(lia)) as D2.
  assert (A1 : days_from_civil 1000 1 1 = -354285) by reflexivity. assert (A2 : days_from_civil 10000 1 1 = 2932897) by reflexivity.
  subst ex. cbn [t_sec t_nsec t_zone]. split; auto. unfold date_ok. cbn [t_sec t_zone]. split; auto.
  set (D := days_from_civil y mo d) in *. clearbody D. clear - D1 D2 A1 A2. split; [|lia].
  replace (_ + tz_off env) with (D * 86400) by lia. apply Z.mod_mul. lia.
Qed.
Lemma s_0702 : dgood env (ok E0702) (dec_0702 env).
Proof.
  unfold dec_0702. drun. repeat gstep.
  eapply (g_bind (fun ex => date_ok env ex /\ t_nsec ex = 0)).
  { apply g_lift. unfold good. pose proof (parse_no_panic (tz_off env) (bcd_to_string a7 ++ repeat 48 6)) as N.
    destruct (parse_datetime _ _) eqn:E; auto; [eapply dropzc_head_date; [|exact E]; auto|subst; gerr]. }
  gnext. gfin. cbv beta iota delta [decoded_ok].
  cbn [a0702_state a0702_time a0702_ic a0702_name a0702_number a0702_company a0702_expiry]. sp.
Qed.
Lemma atoi_bound s : 0 <= atoi_or_zero s < 10 ^ zlen s.
Proof.
  unfold atoi_or_zero. pose proof (zlen_nonneg s). destruct (parse_uint s) as [n|e|] eqn:E; try (split; [lia|apply Z.pow_pos_nonneg; lia]).
  apply parse_uint_inv in E. destruct E as (ds & Hd & -> & -> & _). rewrite zlen_chars. apply dval_bound; auto.
Qed.
Lemma can_time_ok buf : good env (fun t => 0 <= t < 101 * ns_hour) (can_time buf).
Proof.
  unfold can_time. set (s := bcd_to_string_pad true buf). cbv zeta. destruct (Z.eqb_spec (zlen s) 10) as [L|]; cbn [negb]; [|cbn; gerr].
  assert (Ln : length s = 10%nat) by (unfold zlen in L; lia).
  pose proof (atoi_bound (firstn 2 s)) as B1. pose proof (atoi_bound (firstn 2 (skipn 2 s))) as B2.
  pose proof (atoi_bound (firstn 2 (skipn 4 s))) as B3. pose proof (atoi_bound (firstn 4 (skipn 6 s))) as B4.
  unfold zlen in B1, B2, B3, B4. rewrite !firstn_length, ?skipn_length, Ln in *. cbn [Init.Nat.min Nat.sub Z.of_nat Pos.of_succ_nat Pos.succ] in *.
  change (10 ^ 2) with 100 in *. change (10 ^ 4) with 10000 in *. unfold good, ns_hour, ns_ms.
  set (x1 := atoi_or_zero (firstn 2 s)) in *. set (x2 := atoi_or_zero (firstn 2 (skipn 2 s))) in *.
  set (x3 := atoi_or_zero (firstn 2 (skipn 4 s))) in *. set (x4 := atoi_or_zero (firstn 4 (skipn 6 s))) in *.
  clearbody x1 x2 x3 x4. clear - B1 B2 B3 B4. lia.
Qed.
Lemma s_0705 : dgood env (ok E0705) dec_0705.
Proof.
  unfold dec_0705. drun. do 2 gstep. eapply g_bind; [apply g_lift, can_time_ok|gnext]. gstep. gfin.
  cbv beta iota delta [decoded_ok]. cbn [a0705_time a0705_items]. sp.
Qed.
Lemma gz_loop_ok a : forall c st b, st <> GzMore -> exists d, gz_loop (map (fun x => (x, GzMore)) a ++ (c, st) :: b) = Ok d.
Proof.
  induction a as [|x a IH]; intros c st b H; cbn.
  - destruct st; [congruence| |]; eauto.
  - destruct (IH c st b H) as [d ->]. cbn. eauto.
Qed.
Lemma gz_loop_err l : match gz_loop l with Ok _ => True | Err e => e = ErrFuel | Panic => False end.
Proof. induction l as [|[c st] l IH]; cbn; auto. destruct st; auto. destruct (gz_loop l); auto. Qed.
Lemma s_0901 : dgood env (ok E0901) (dec_0901 env).
Proof.
  unfold dec_0901. drun. do 2 gstep. eapply (g_bind (fun _ => True)).
  - apply g_lift. unfold good. destruct (gz_dec env a0) as [steps|] eqn:E; [|gerr].
    pose proof (gz_loop_err steps) as N. destruct (gz_loop steps) eqn:E2; auto. subst. split; [discriminate|].
    intros T. destruct (T _ _ E) as (x & c & st & b & -> & Hst). destruct (gz_loop_ok x c st b Hst) as [d Hd]. congruence.
  - gnext. gfin. exact I.
Qed.
Lemma be_value_bound l : bytes_ok l -> 0 <= be_value l < 256 ^ zlen l.
Proof.
  unfold be_value. assert (G : forall l a, bytes_ok l -> 0 <= a -> a * 256 ^ zlen l <= fold_left (fun acc b => acc * 256 + b) l a < (a + 1) * 256 ^ zlen l).
  { clear l. induction l as [|x l IH]; intros a H Ha; cbn [fold_left].
    - rewrite zlen_nil. lia.
    - apply bytes_ok_cons in H. destruct H as [Hx H]. unfold is_byte in Hx. specialize (IH (a * 256 + x) H ltac:(lia)).
      rewrite zlen_cons. pose proof (zlen_nonneg l). rewrite Z.pow_add_r, Z.pow_1_r by lia.
      assert (0 < 256 ^ zlen l) by (apply Z.pow_pos_nonneg; lia). set (k := 256 ^ zlen l) in *. clearbody k. nia. }
  intros H. specialize (G l 0 H ltac:(lia)). lia.
Qed.
Lemma s_0a00 : dgood env (ok E0A00) dec_0a00.
Proof.
  unfold dec_0a00. drun. do 2 gstep. gfin. cbv beta iota delta [decoded_ok]. cbn [a0a00_key]. split; [assumption|].
  pose proof (be_value_bound a0 ltac:(assumption)) as B. rewrite H1 in B. change (256 ^ 128) with (2 ^ 1024) in B. exact B.
Qed.
Lemma labelled_consumes l a l' : r_labelled env l = Ok (a, l') -> zlen l' < zlen l.
Proof.
  unfold r_labelled, rbind at 1. destruct l as [|x l]; cbn [r_byte]; [discriminate|]. unfold rbind at 1.
  destruct l as [|n l]; cbn [r_byte]; [discriminate|]. unfold rbind, r_str_n, rbind, rlift, rret. destruct (r_bytes n l) as [[d l1]|e|] eqn:E; try discriminate.
  destruct (text_of env d); try discriminate. intros H. injection H as <- <-. revert E. unfold r_bytes.
  destruct (zlen l <? n); [discriminate|]. destruct (n <? 0); [discriminate|]. intros H. injection H as _ <-.
  rewrite !zlen_cons. unfold zlen. rewrite skipn_length. lia.
Qed.
Lemma s_8302 : dgood env (ok E8302) (dec_8302 env).
Proof.
  unfold dec_8302.
  apply (d_run_n env _ (fun k => rd f <- r_byte ; rd n <- r_byte ; rd q <- r_str_n env n ;
     rd ans <- r_until_empty k (r_labelled env) ; rret (T8302 f q ans)) (fun z => z <? 2)); [discriminate|discriminate|intros k].
  do 3 gstep. eapply g_bind; [apply (g_until env dec_labelled); [intros; apply g_labelled|apply labelled_consumes|lia]|gnext].
  gfin. cbv beta iota delta [decoded_ok]. cbn [a8302_flag a8302_q a8302_answers]. sp.
Qed.
Lemma s_8800 : dgood env (ok E8800) dec_8800.
Proof.
  unfold dec_8800. drun. gstep. apply g_len0.
  - gall. cbv beta iota delta [decoded_ok]. cbn [a8800_media a8800_ids]. sp.
  - gfin. cbv beta iota delta [decoded_ok]. cbn [a8800_media a8800_ids]. split; [assumption|]. split; [constructor|]. cbn. lia.
Qed.
Lemma firstn_all_eq {A} (l l2 : list A) : zlen l2 = zlen l -> firstn (Z.to_nat (zlen l)) l2 = firstn (Z.to_nat (zlen l)) l -> l2 = l.
Proof.
  intros L. rewrite zlen_to_nat. assert (length l2 = length l) by (unfold zlen in L; lia).
  rewrite firstn_all, <- H, firstn_all. auto.
Qed.
Lemma s_data (c : tdata -> entity) : (forall x, decoded_ok env (c x) = (is_byte (td_type x) /\ bytes_ok (td_data x))) -> dgood env (ok c) dec_data.
Proof.
  intros Hc data H. unfold dec_data. destruct data as [|a t]; [gerr|]. apply bytes_ok_cons in H. destruct H as [H1 H2].
  rewrite Hc. cbn [td_type td_data]. split; [auto|]. pose proof (zlen_nonneg (a :: t)). split; [lia|].
  intros d2 L F. apply firstn_all_eq in F; auto. subst. auto.
Qed.
Lemma s_empty {A} (c : unit -> A) (Q : A -> Prop) : Q (c tt) -> dgood env (fun x => Q (c x)) dec_empty.
Proof. intros H data _. cbn. split; auto. pose proof (zlen_nonneg data). split; [lia|]. auto. Qed.
Lemma two_bytes_eq (a b : Z) t d2 : zlen d2 = zlen (a :: b :: t) -> firstn (Z.to_nat 2) d2 = firstn (Z.to_nat 2) (a :: b :: t) -> exists t2, d2 = a :: b :: t2.
Proof.
  change (Z.to_nat 2) with 2%nat. rewrite !zlen_cons. pose proof (zlen_nonneg t). intros L. destruct d2 as [|x [|y d2]]; rewrite ?zlen_cons, ?zlen_nil in L; try lia. cbn [firstn].
  intros E. injection E as -> ->. eauto.
Qed.
Lemma one_byte_eq (a : Z) t d2 : zlen d2 = zlen (a :: t) -> firstn (Z.to_nat 1) d2 = firstn (Z.to_nat 1) (a :: t) -> exists t2, d2 = a :: t2.
Proof.
  change (Z.to_nat 1) with 1%nat. rewrite !zlen_cons. pose proof (zlen_nonneg t). intros L. destruct d2 as [|x d2]; rewrite ?zlen_cons, ?zlen_nil in L; try lia. cbn [firstn].
  intros E. injection E as ->. eauto.
Qed.
Lemma s_0108 : dgood env (ok E0108) dec_0108.
Proof.
  intros data H. unfold dec_0108. destruct data as [|a [|b t]]; try gerr. apply bytes_ok_cons in H. destruct H as [H1 H].
  apply bytes_ok_cons in H. destruct H as [H2 H]. split; [cbn; auto|]. split; [rewrite !zlen_cons; pose proof (zlen_nonneg t); lia|].
  intros d2 L F. destruct (two_bytes_eq a b t d2 L F) as [t2 ->]. auto.
Qed.
Lemma s_0301 : dgood env (ok E0301) dec_0301.
Proof.
  intros data H. unfold dec_0301. destruct data as [|a t]; try gerr. apply bytes_ok_cons in H. destruct H as [H1 H].
split; [cbn; auto|]. split; [rewrite !zlen_cons; pose proof (zlen_nonneg t); lia|].
  intros d2 L F. destruct (one_byte_eq a t d2 L F) as [t2 ->]. auto.
Qed.
Lemma s_8500 : dgood env (ok E8500) dec_8500.
Proof.
  intros data H. unfold dec_8500. destruct data as [|a t]; try gerr. apply bytes_ok_cons in H. destruct H as [H1 H].
split; [cbn; auto|]. split; [rewrite !zlen_cons; pose proof (zlen_nonneg t); lia|].
  intros d2 L F. destruct (one_byte_eq a t d2 L F) as [t2 ->]. auto.
Qed.
(** *** the decoders whose count is too small *)
Lemma s_0303 : dsafe env (ok E0303) dec_0303.
Proof.
  intros data H. unfold dec_0303. destruct data as [|a [|b t]]; try gerr. apply bytes_ok_cons in H. destruct H as [H1 H].
  apply bytes_ok_cons in H. destruct H as [H2 H]. split; [cbn; auto|]. rewrite !zlen_cons. pose proof (zlen_nonneg t). lia.
Qed.
Lemma s_0200' : dsafe env (ok E0200) (dec_0200 env).
Proof.
  intros data H. pose proof (s_0200 env data H) as S. destruct (dec_0200 env data) as [[a n]|e|]; auto.
  destruct S as (S1 & -> & S2 & _). split; [exact S1|lia].
Qed.
Lemma s_0201 (c : t0201 -> entity) : (forall x, decoded_ok env (c x) = (is_u16 (a0201_serial x) /\ dec_loc env (a0201_loc x))) -> dsafe env (ok c) (dec_0201 env).
Proof.
  intros Hc data H. unfold dec_0201. destruct (zlen data <=? 3); [gerr|].
  pose proof (g_u16 (env := env) (m := zlen data) data H ltac:(lia)) as G. destruct (r_u16 data) as [[a l]|e|] eqn:E; auto.
  destruct G as (Ha & pre & -> & _). apply bytes_ok_app in H. destruct H as [_ H].
  pose proof (s_0200 env l H) as S. destruct (dec_0200 env l) as [[x n]|e|]; auto.
  destruct S as (S1 & -> & S2 & _). cbn [bind]. rewrite Hc. cbn [a0201_serial a0201_loc]. split; auto.
  apply z_u16 in E. lia.
Qed.
Lemma s_text (c : ttext -> entity) : (forall x, decoded_ok env (c x) = (is_byte (tt_flag x) /\ no_nul (tt_text x))) -> dsafe env (ok c) (dec_text env).
Proof.
  intros Hc data H. unfold dec_text. destruct data as [|f l]; [gerr|]. apply bytes_ok_cons in H. destruct H as [Hf H].
  pose proof (g_str_opt (env := env) (m := zlen l) l H ltac:(lia)) as G. destruct (r_str_opt env l) as [[a l']|e|] eqn:E; auto.
  destruct G as (Ha & pre & -> & _). rewrite Hc. split; [split; auto|]. rewrite zlen_cons, zlen_app. pose proof (zlen_nonneg pre). pose proof (zlen_nonneg l'). lia.
Qed.
Lemma s_ids (c : tids -> entity) : (forall x, decoded_ok env (c x) = list_ok is_u32 (ti_ids x) 255) -> dsafe env (ok c) dec_ids.
Proof.
  intros Hc data H. unfold dec_ids. destruct data as [|f l]; [gerr|]. apply bytes_ok_cons in H. destruct H as [Hf H].
  pose proof (g_list8 (env := env) (m := zlen l) is_u32 r_u32 f Hf g_u32 l H ltac:(lia)) as G. destruct (r_list _ _ l) as [[a l']|e|] eqn:E; auto.
  destruct G as (Ha & pre & -> & _). rewrite Hc. cbn [ti_ids]. split; auto. rewrite zlen_cons, zlen_app. pose proof (zlen_nonneg pre). pose proof (zlen_nonneg l'). lia.
Qed.
Lemma s_0801_head : dgood env (fun x => wf_0800 (a0801_head x) /\ dec_loc env (a0801_loc x) /\ p_extras (a0801_loc x) = []) (dec_0801 env).
Proof.
  unfold dec_0801. drun. do 2 gstep. eapply g_bind; [apply g_0200_of; auto|gnext]. gfin. cbn [a0801_head a0801_loc]. sp; auto.
Qed.
Lemma s_0801 : dgood env (ok E0801) (fun data => do x <- dec_0801_packet env data ; Ok (x, zlen data)).
Proof.
  intros data H. unfold dec_0801_packet. pose proof (s_0801_head data H) as G. destruct (dec_0801 env data) as [[a n]|e|] eqn:E; auto.
  destruct G as ((G1 & G2 & G3) & G4 & _). cbn [bind]. replace ((n <? 0) || (zlen data <? n)) with false by lia. cbn [bind].
  split; [|split; [pose proof (zlen_nonneg data); lia|]].
  - cbv beta iota delta [decoded_ok]. cbn [a0801_head a0801_loc a0801_packet rdr_data rdr_fail]. sp; auto. apply bytes_ok_skipn; auto.
  - intros d2 L F. apply firstn_all_eq in F; auto. subst. rewrite E. cbn [bind]. replace ((n <? 0) || (zlen data <? n)) with false by lia. reflexivity.
Qed.

(** ** All of them *)
Definition outcome (typ : Z) (data : bytes) (r : res (entity * Z)) : Prop :=
  match r with
  | Ok (e, n) => entity_id e = typ /\ In typ registered /\ decoded_ok env e /\ 0 <= n <= zlen data /\
      (counts_right typ = true -> forall data2, zlen data2 = zlen data ->
        firstn (Z.to_nat n) data2 = firstn (Z.to_nat n) data -> decode env typ data2 = Ok (e, n))
  | Err e => e = ErrTypeNotRegistered /\ ~ In typ registered \/ In typ registered /\ good_err env e
  | Panic => False
  end.
Lemma out_good {A} (c : A -> entity) typ dec data : dgood env (ok c) dec -> (forall d, decode env typ d = omap c (dec d)) ->
  (forall x, entity_id (c x) = typ) -> In typ registered -> bytes_ok data -> outcome typ data (decode env typ data).
Proof.
  intros H D Hid Hin Hd. rewrite D. specialize (H data Hd). unfold omap, outcome. destruct (dec data) as [[a n]|e|]; cbn [bind].
  - destruct H as (H1 & H2 & H3). repeat (split; [auto; fail|]). intros _ d2 L F. rewrite D. unfold omap. rewrite (H3 d2 L F). reflexivity.
  - right. auto.
  - auto.
Qed.
Lemma out_safe {A} (c : A -> entity) typ dec data : dsafe env (ok c) dec -> (forall d, decode env typ d = omap c (dec d)) ->
  (forall x, entity_id (c x) = typ) -> In typ registered -> counts_right typ = false -> bytes_ok data -> outcome typ data (decode env typ data).
Proof.
  intros H D Hid Hin Hf Hd. rewrite D. specialize (H data Hd). unfold omap, outcome. destruct (dec data) as [[a n]|e|]; cbn [bind].
  - destruct H as (H1 & H2). repeat (split; [auto; fail|]). congruence.
  - right. auto.
  - auto.
Qed.
Ltac inreg := unfold registered; repeat (first [left; reflexivity | right]).
Lemma out_0801 data : bytes_ok data -> outcome 2049 data (decode env 2049 data).
Proof.
  intros H. change (decode env 2049 data) with (do x <- dec_0801_packet env data ; Ok (E0801 x, zlen data)).
  pose proof (s_0801 data H) as G. cbv beta in G. destruct (dec_0801_packet env data) as [x|e|] eqn:E; cbn [bind] in *; unfold outcome.
  - destruct G as (G1 & G2 & G3). split; [reflexivity|]. split; [inreg|]. split; [exact G1|]. split; [auto|]. intros _ d2 L F.
    apply firstn_all_eq in F; auto. subst. change (decode env 2049 data) with (do x <- dec_0801_packet env data ; Ok (E0801 x, zlen data)).
    rewrite E. reflexivity.
  - right. split; [inreg|auto].
  - auto.
Qed.
Ltac br k t := match goal with |- outcome ?typ _ _ => destruct (Z.eq_dec typ k) as [->|]; [t|] end.
Lemma decode_outcome typ data : bytes_ok data -> outcome typ data (decode env typ data).
Proof.
  intros H.
  br 1 ltac:(eapply (out_good E0001 1 (dec_0001)); [apply s_0001|reflexivity|reflexivity|inreg|assumption]).
  br 2 ltac:(eapply (out_good (fun _ : unit => E0002) 2 dec_empty); [apply (s_empty (fun _ => E0002) (decoded_ok env)); exact I|reflexivity|reflexivity|inreg|assumption]).
  br 3 ltac:(eapply (out_good (fun _ : unit => E0003) 3 dec_empty); [apply (s_empty (fun _ => E0003) (decoded_ok env)); exact I|reflexivity|reflexivity|inreg|assumption]).
  br 256 ltac:(eapply (out_good E0100 256 (dec_0100 env)); [apply s_0100|reflexivity|reflexivity|inreg|assumption]).
  br 258 ltac:(eapply (out_good E0102 258 (dec_0102 env)); [apply s_0102|reflexivity|reflexivity|inreg|assumption]).
  br 260 ltac:(eapply (out_good E0104 260 (dec_0104)); [apply s_0104|reflexivity|reflexivity|inreg|assumption]).
  br 263 ltac:(eapply (out_good E0107 263 (dec_0107)); [apply s_0107|reflexivity|reflexivity|inreg|assumption]).
  br 264 ltac:(eapply (out_good E0108 264 (dec_0108)); [apply s_0108|reflexivity|reflexivity|inreg|assumption]).
  br 512 ltac:(eapply (out_safe E0200 512 (dec_0200 env)); [apply s_0200'|reflexivity|reflexivity|inreg|reflexivity|assumption]).
  br 513 ltac:(eapply (out_safe E0201 513 (dec_0201 env)); [apply s_0201; reflexivity|reflexivity|reflexivity|inreg|reflexivity|assumption]).
  br 769 ltac:(eapply (out_good E0301 769 (dec_0301)); [apply s_0301|reflexivity|reflexivity|inreg|assumption]).
  br 770 ltac:(eapply (out_good E0302 770 (dec_0302)); [apply s_0302|reflexivity|reflexivity|inreg|assumption]).
  br 771 ltac:(eapply (out_safe E0303 771 (dec_0303)); [apply s_0303|reflexivity|reflexivity|inreg|reflexivity|assumption]).
  br 1280 ltac:(eapply (out_safe E0500 1280 (dec_0201 env)); [apply s_0201; reflexivity|reflexivity|reflexivity|inreg|reflexivity|assumption]).
  br 1792 ltac:(eapply (out_good E0700 1792 (dec_0700)); [apply s_0700|reflexivity|reflexivity|inreg|assumption]).
  br 1793 ltac:(eapply (out_good E0701 1793 (dec_0701)); [apply s_0701|reflexivity|reflexivity|inreg|assumption]).
  br 1794 ltac:(eapply (out_good E0702 1794 (dec_0702 env)); [apply s_0702|reflexivity|reflexivity|inreg|assumption]).
  br 1796 ltac:(eapply (out_good E0704 1796 (dec_0704 env)); [apply s_0704|reflexivity|reflexivity|inreg|assumption]).
  br 1797 ltac:(eapply (out_good E0705 1797 (dec_0705)); [apply s_0705|reflexivity|reflexivity|inreg|assumption]).
  br 2048 ltac:(eapply (out_good E0800 2048 (dec_0800)); [apply s_0800|reflexivity|reflexivity|inreg|assumption]).
  br 2049 ltac:(idtac; apply out_0801; assumption).
  br 2050 ltac:(eapply (out_good E0802 2050 (dec_0802 env)); [apply s_0802|reflexivity|reflexivity|inreg|assumption]).
  br 2053 ltac:(eapply (out_good E0805 2053 (dec_0805)); [apply s_0805|reflexivity|reflexivity|inreg|assumption]).
  br 2304 ltac:(eapply (out_good E0900 2304 dec_data); [apply s_data; reflexivity|reflexivity|reflexivity|inreg|assumption]).
  br 2305 ltac:(eapply (out_good E0901 2305 (dec_0901 env)); [apply s_0901|reflexivity|reflexivity|inreg|assumption]).
  br 2560 ltac:(eapply (out_good E0A00 2560 (dec_0a00)); [apply s_0a00|reflexivity|reflexivity|inreg|assumption]).
  br 32769 ltac:(eapply (out_good E8001 32769 (dec_8001)); [apply s_8001|reflexivity|reflexivity|inreg|assumption]).
  br 32771 ltac:(eapply (out_good E8003 32771 (dec_8003)); [apply s_8003|reflexivity|reflexivity|inreg|assumption]).
  br 33024 ltac:(eapply (out_good E8100 33024 (dec_8100 env)); [apply s_8100|reflexivity|reflexivity|inreg|assumption]).
  br 33027 ltac:(eapply (out_good E8103 33027 (dec_8103)); [apply s_8103|reflexivity|reflexivity|inreg|assumption]).
  br 33028 ltac:(eapply (out_good (fun _ : unit => E8104) 33028 dec_empty); [apply (s_empty (fun _ => E8104) (decoded_ok env)); exact I|reflexivity|reflexivity|inreg|assumption]).
  br 33029 ltac:(eapply (out_safe E8105 33029 (dec_text env)); [apply s_text; reflexivity|reflexivity|reflexivity|inreg|reflexivity|assumption]).
  br 33030 ltac:(eapply (out_safe E8106 33030 (dec_ids)); [apply s_ids; reflexivity|reflexivity|reflexivity|inreg|reflexivity|assumption]).
  br 33031 ltac:(eapply (out_good (fun _ : unit => E8107) 33031 dec_empty); [apply (s_empty (fun _ => E8107) (decoded_ok env)); exact I|reflexivity|reflexivity|inreg|assumption]).
  br 33032 ltac:(eapply (out_good E8108 33032 (dec_8108 env)); [apply s_8108|reflexivity|reflexivity|inreg|assumption]).
  br 33281 ltac:(eapply (out_good (fun _ : unit => E8201) 33281 dec_empty); [apply (s_empty (fun _ => E8201) (decoded_ok env)); exact I|reflexivity|reflexivity|inreg|assumption]).
  br 33282 ltac:(eapply (out_good E8202 33282 (dec_8202)); [apply s_8202|reflexivity|reflexivity|inreg|assumption]).
  br 33283 ltac:(eapply (out_good E8203 33283 (dec_8202)); [apply s_8202|reflexivity|reflexivity|inreg|assumption]).
  br 33536 ltac:(eapply (out_safe E8300 33536 (dec_text env)); [apply s_text; reflexivity|reflexivity|reflexivity|inreg|reflexivity|assumption]).
  br 33537 ltac:(eapply (out_good E8301 33537 (dec_8301 env)); [apply s_8301|reflexivity|reflexivity|inreg|assumption]).
  br 33538 ltac:(eapply (out_good E8302 33538 (dec_8302 env)); [apply s_8302|reflexivity|reflexivity|inreg|assumption]).
  br 33539 ltac:(eapply (out_good E8303 33539 (dec_8303 env)); [apply s_8303|reflexivity|reflexivity|inreg|assumption]).
  br 33540 ltac:(eapply (out_good E8304 33540 (dec_8304 env)); [apply s_8304|reflexivity|reflexivity|inreg|assumption]).
  br 33792 ltac:(eapply (out_good E8400 33792 (dec_8400 env)); [apply s_8400|reflexivity|reflexivity|inreg|assumption]).
  br 33793 ltac:(eapply (out_good E8401 33793 (dec_8401 env)); [apply s_8401|reflexivity|reflexivity|inreg|assumption]).
  br 34048 ltac:(eapply (out_good E8500 34048 (dec_8500)); [apply s_8500|reflexivity|reflexivity|inreg|assumption]).
  br 34304 ltac:(eapply (out_good E8600 34304 (dec_8600 env)); [apply s_8600|reflexivity|reflexivity|inreg|assumption]).
  br 34305 ltac:(eapply (out_safe E8601 34305 (dec_ids)); [apply s_ids; reflexivity|reflexivity|reflexivity|inreg|reflexivity|assumption]).
  br 34306 ltac:(eapply (out_good E8602 34306 (dec_8602 env)); [apply s_8602|reflexivity|reflexivity|inreg|assumption]).
  br 34307 ltac:(eapply (out_safe E8603 34307 (dec_ids)); [apply s_ids; reflexivity|reflexivity|reflexivity|inreg|reflexivity|assumption]).
  br 34308 ltac:(eapply (out_good E8604 34308 (dec_8604 env)); [apply s_8604|reflexivity|reflexivity|inreg|assumption]).
  br 34309 ltac:(eapply (out_safe E8605 34309 (dec_ids)); [apply s_ids; reflexivity|reflexivity|reflexivity|inreg|reflexivity|assumption]).
  br 34310 ltac:(eapply (out_good E8606 34310 (dec_8606 env)); [apply s_8606|reflexivity|reflexivity|inreg|assumption]).
  br 34311 ltac:(eapply (out_good E8607 34311 (dec_8607)); [apply s_8607|reflexivity|reflexivity|inreg|assumption]).
  br 34560 ltac:(eapply (out_good E8700 34560 dec_data); [apply s_data; reflexivity|reflexivity|reflexivity|inreg|assumption]).
  br 34561 ltac:(eapply (out_good E8701 34561 dec_data); [apply s_data; reflexivity|reflexivity|reflexivity|inreg|assumption]).
  br 34562 ltac:(eapply (out_good (fun _ : unit => E8702) 34562 dec_empty); [apply (s_empty (fun _ => E8702) (decoded_ok env)); exact I|reflexivity|reflexivity|inreg|assumption]).
  br 34816 ltac:(eapply (out_good E8800 34816 (dec_8800)); [apply s_8800|reflexivity|reflexivity|inreg|assumption]).
  br 34817 ltac:(eapply (out_good E8801 34817 (dec_8801)); [apply s_8801|reflexivity|reflexivity|inreg|assumption]).
  br 34818 ltac:(eapply (out_good E8802 34818 (dec_8802 env)); [apply s_8802|reflexivity|reflexivity|inreg|assumption]).
  br 34819 ltac:(eapply (out_good E8803 34819 (dec_8803 env)); [apply s_8803|reflexivity|reflexivity|inreg|assumption]).
  br 34820 ltac:(eapply (out_good E8804 34820 (dec_8804)); [apply s_8804|reflexivity|reflexivity|inreg|assumption]).
  br 34821 ltac:(eapply (out_good E8805 34821 (dec_8805)); [apply s_8805|reflexivity|reflexivity|inreg|assumption]).
  br 35072 ltac:(eapply (out_good E8900 35072 dec_data); [apply s_data; reflexivity|reflexivity|reflexivity|inreg|assumption]).
  br 35328 ltac:(eapply (out_good E8A00 35328 (dec_0a00)); [apply s_0a00|reflexivity|reflexivity|inreg|assumption]).
  unfold decode. repeat match goal with |- context [typ =? ?k] => replace (typ =? k) with false by (symmetry; apply Z.eqb_neq; assumption) end.
  cbn. left. split; auto. unfold registered. cbn [In]. intuition congruence.
Qed.
End D.
