(** Every body is encoded with the fields of its layout. *)
From Verif Require Import Base LibBase Bits LibBits Bcd LibBcd GoTime LibCalendar LibTime Decimal Env SpecGeo LibDec
  EntTerm EntPlat Registry SpecEntity LibEntity SpecWire ProofRound ProofRound2 ProofRound3 ProofWire.

(** ** Text *)
Lemma w_str_gb env s : text_ok env s -> w_str env s = Ok (gb env s).
Proof. intros (d & H & _). unfold w_str, gb. rewrite H. reflexivity. Qed.
Lemma w_str_last env s : text_opt env s -> exists d, w_str_opt env s = Ok d /\ on_wire (last_text env s) d.
Proof.
  unfold w_str_opt, last_text. destruct s as [|x s].
  - intros _. exists []. split; [auto|constructor].
  - intros [H|H]; [discriminate|]. rewrite zlen_cons. pose proof (zlen_nonneg s). replace (0 <? 1 + zlen s) with true by lia.
    exists (gb env (x :: s)). split; [apply w_str_gb; auto|]. apply ow_one. constructor.
Qed.
Lemma len_byte {A} (l : list A) : zlen l <= 255 -> is_byte (zlen l).
Proof. pose proof (zlen_nonneg l). unfold is_byte. lia. Qed.
Lemma len_u16 {A} (l : list A) : zlen l <= 65535 -> is_u16 (zlen l).
Proof. pose proof (zlen_nonneg l). unfold is_u16. lia. Qed.
Lemma fixed_len s w : fixed_ok s (Z.of_nat w) -> (length s <= w)%nat.
Proof. intros (_ & _ & H). unfold zlen in H. lia. Qed.

(** One field after the other. *)
Ltac fld1 := first
  [ apply ShRaw
  | apply shows_1; first [assumption | (apply len_byte; (assumption || lia))]
  | apply shows_2; first [assumption | (apply len_u16; (assumption || lia))]
  | apply shows_4; assumption
  | apply shows_coord; assumption
  | apply shows_time; assumption
  | apply shows_pad; first [apply fixed_len; assumption | assumption] ].
Ltac ow1 := apply OwCons; [fld1|].
Ltac ow := cbn [concat app]; rewrite ?app_nil_r; repeat first [apply OwNil | ow1 | (apply ow_one; fld1)].

(** ** Extra items and positions *)
Lemma ow_x id n fs d : is_byte id -> is_byte n -> zlen d = n -> on_wire fs d -> on_wire (Num 1 id :: Num 1 n :: fs) (id :: u8 (zlen d) :: d).
Proof.
  intros H1 H2 H3 H4. rewrite H3. unfold u8, is_byte in *. rewrite Z.mod_small by lia.
  apply (OwCons _ _ [id]); [apply (shows_1 id); auto|]. apply (OwCons _ _ [n]); [apply (shows_1 n); auto|]. auto.
Qed.
Lemma ow_extra x : wf_extra x ->
  on_wire (match x with Some x => extra_layout (x_val x) | None => [] end) (enc_extra x).
Proof.
  destruct x as [x|]; [|constructor]. intros [H E]. rewrite E. cbn [x_val new_extra].
  assert (B : forall n, 0 <= n < 256 -> is_byte n) by (unfold is_byte; auto).
  destruct (x_val x) as [v|v|v|v|t a|t a d|r d z|v|v|v|v|v]; cbn [extra_val_ok] in H; unfold enc_extra, new_extra; cbn [x_val x_ser extra_id extra_layout].
  5: { destruct H as [Ht [[-> ->]|[Hz (n & -> & Hn)]]].
       - change (0 =? 0) with true. cbn [negb]. cbv iota. apply ow_x; [apply B; lia|apply B; lia|reflexivity|]. ow.
       - replace (t =? 0) with false by lia. cbn [negb]. apply ow_x; [apply B; lia|apply B; lia|reflexivity|]. ow. }
  all: try (destruct H as (H1 & H2 & H3)); apply ow_x; [apply B; lia|apply B; lia|reflexivity|]; ow.
Qed.
Lemma ow_extras xs : Forall wf_extra xs ->
  on_wire (concat (map (fun x => match x with Some x => extra_layout (x_val x) | None => [] end) xs)) (enc_extras xs).
Proof. intros H. unfold enc_extras. eapply ow_map; [|exact H]. apply ow_extra. Qed.
Lemma ow_loc env p : wf_0200 env p -> on_wire (loc_layout env p) (enc_0200 env p).
Proof.
  intros (H1 & H2 & H3 & H4 & H5 & H6 & H7 & H8 & H9 & H10 & H11). rewrite enc_0200_split. unfold loc_layout. apply ow_app; [|apply ow_extras; auto].
  unfold enc_0200_fixed. pose proof (proj1 (loc_status_ok p H2 H3 H4)) as S. rewrite loc_status_eq in * by auto. ow.
Qed.
Lemma extra_len_size x : wf_extra x -> extra_size x = extra_len x.
Proof.
  destruct x as [x|]; [|auto]. intros [H E]. cbn [extra_size extra_len]. rewrite E at 1. unfold new_extra. cbn [x_ser].
  destruct (x_val x) as [v|v|v|v|t a|t a d|r d z|v|v|v|v|v]; cbn [extra_val_ok] in H; try reflexivity.
  destruct H as [Ht [[-> ->]|[Hz (n & -> & Hn)]]]; [reflexivity|]. replace (t =? 0) with false by lia. reflexivity.
Qed.
Lemma loc_len_eq env p : wf_0200 env p -> zlen (enc_0200 env p) = loc_len p.
Proof.
  intros (_ & _ & _ & _ & _ & _ & _ & _ & _ & _ & H). rewrite len_0200, extras_len. unfold loc_len. f_equal.
  induction H as [|x l Hx Hl IH]; cbn; auto. rewrite IH, extra_len_size by auto. reflexivity.
Qed.

(** ** Parts *)
Lemma ow_param p : wf_param p -> exists d, enc_param p = Ok d /\ on_wire (param_layout p) d.
Proof.
  destruct p as [p|]; [|intros []]. intros (H1 & H2 & H3). eexists. split; [reflexivity|].
  cbn [param_layout]. rewrite (u8_len _ 255) by lia. apply OwCons; [apply shows_4; auto|]. apply OwCons; [apply shows_1, len_byte; auto|].
  apply ow_one. constructor.
Qed.
Lemma ow_labelled env x : wf_labelled env x -> exists d, enc_labelled env x = Ok d /\ on_wire (labelled_layout env x) d.
Proof.
  intros (H1 & H2 & H3). unfold enc_labelled. rewrite w_str_gb by auto. fold (gb env (lb_text x)) in H3. cbn [bind]. eexists. split; [reflexivity|].
  unfold labelled_layout, counted_text. rewrite (u8_len _ 255) by lia. ow.
Qed.
Lemma ow_contact env c : wf_contact env c -> exists d, enc_contact env c = Ok d /\
  on_wire (Num 1 (ct_flag c) :: counted_text env 1 (ct_number c) ++ counted_text env 1 (ct_name c)) d.
Proof.
  intros (H1 & (H2 & H3) & (H4 & H5)). unfold enc_contact. rewrite !w_str_gb by auto. fold (gb env (ct_number c)) in H3. fold (gb env (ct_name c)) in H5.
  cbn [bind]. eexists. split; [reflexivity|]. unfold counted_text. rewrite !(u8_len _ 255) by lia. ow.
Qed.
Lemma ow_menu env s : text_in env s 65535 -> exists d, enc_8303_item env s = Ok d /\ on_wire (counted_text env 2 s) d.
Proof.
  intros (H2 & H3). unfold enc_8303_item. rewrite w_str_gb by auto. fold (gb env s) in H3.
  cbn [bind]. eexists. split; [reflexivity|]. unfold counted_text. rewrite (u16_len _ 65535) by lia. ow.
Qed.
Lemma ow_limits env attr l : wf_limits_if env attr l -> on_wire (limits_layout env attr l) (if Z.testbit attr 0 then enc_limits env l else []).
Proof.
  unfold wf_limits_if, limits_layout. destruct (Z.testbit attr 0); [|constructor]. intros H. destruct (H eq_refl) as (H1 & H2 & H3 & H4).
  unfold enc_limits. ow.
Qed.
Lemma ow_circle env c : wf_circle env c -> on_wire (circle_layout env c) (enc_circle env c).
Proof.
  intros (H1 & H2 & H3 & H4 & H5 & H6 & H7 & H8). unfold enc_circle, circle_layout. rewrite circle_attr_eq, attr_timed by auto.
  pose proof (attr_u16 _ (neg6 (ci_lat c)) (neg6 (ci_lng c)) H2) as U. unfold two_marks in *. fold (ci_south c) (ci_west c) in *.
  cbn [concat app]. rewrite app_nil_r. do 5 ow1. apply ow_limits. auto.
Qed.
Lemma ow_rect env c : wf_rect env c -> on_wire (rect_layout env c) (enc_rect env c).
Proof.
  intros (H1 & H2 & H3 & H4 & H5 & H6 & H7 & H8 & H9 & H10 & H11). unfold enc_rect, rect_layout. rewrite rect_attr_eq, attr_timed by auto.
  pose proof (attr_u16 _ (neg6 (re_llat c) || neg6 (re_rlat c)) (neg6 (re_llng c) || neg6 (re_rlng c)) H2) as U. unfold two_marks in *.
  rewrite !orb_assoc in *. fold (re_south c) (re_west c) in *.
  cbn [concat app]. rewrite app_nil_r. do 6 ow1. apply ow_limits. auto.
Qed.
Lemma ow_poly env e : wf_8604 env e -> on_wire (layout env (E8604 e)) (enc_8604 env e).
Proof.
  intros (H1 & H2 & H3 & H4 & H5). unfold enc_8604. cbn [layout]. rewrite poly_attr_eq, attr_timed by auto.
  pose proof (attr_u16 _ (existsb (fun v => dcoef (vx_lat v) <? 0) (a8604_vs e)) (existsb (fun v => dcoef (vx_lng v) <? 0) (a8604_vs e)) H2) as U.
  unfold two_marks in *. fold (vs_south e) (vs_west e) in *. rewrite (u16_len _ 65535) by lia.
  cbn [concat app]. rewrite app_nil_r. do 2 ow1. apply ow_app; [apply ow_limits; auto|]. unfold counted_list. ow1.
  eapply ow_map; [|exact H5]. intros v (A & B & _). unfold enc_vertex. ow.
Qed.
Lemma ow_point env p : wf_point p -> on_wire (point_layout p) (enc_point env p).
Proof.
  intros W. pose proof W as (H1 & H2 & H3 & H4 & H5 & H6 & H7 & H8 & H9 & H10). unfold enc_point, point_layout. rewrite point_attr_eq by auto.
  assert (U : is_byte (put_bit (put_bit (two_marks (pt_attr p) 2 3 (neg6 (pt_lat p)) (neg6 (pt_lng p))) 0 (present (pt_long p))) 1 (present (pt_speed p)))).
  { pose proof (two_marks_lt (pt_attr p) 2 3 (neg6 (pt_lat p)) (neg6 (pt_lng p)) 8 ltac:(lia) ltac:(lia) H8). apply (put_lt 8); [|lia]. apply put_lt; auto; lia. }
  unfold two_marks in *. fold (pt_south p) (pt_west p) in *.
  cbn [concat app]. rewrite app_nil_r. do 6 ow1. clear U W. apply ow_app.
  - destruct (pt_long p), (pt_short p); cbn [wf_pair both] in *; try tauto; [destruct H9; ow|constructor].
  - destruct (pt_speed p), (pt_over p); cbn [wf_pair both] in *; try tauto; [destruct H10; ow|constructor].
Qed.
Lemma ow_media h : wf_0800 h -> on_wire (media_layout h) (enc_0800 h).
Proof. intros (H1 & H2 & H3 & H4 & H5). unfold enc_0800, media_layout. ow. Qed.
Lemma ow_search env q : wf_8802 env q -> on_wire (search_layout env q) (enc_8802 env q).
Proof. intros (H1 & H2 & H3 & H4 & H5). unfold enc_8802, search_layout. ow. Qed.
Lemma value_be k : forall n, 0 <= n < 256 ^ Z.of_nat k -> value (be_bytes k n) = n.
Proof.
  induction k; intros n H; [cbn in *; lia|]. cbn [be_bytes]. rewrite value_app. cbn [value]. unfold zlen; cbn [length]. rewrite IHk; [|].
  - change (Z.of_nat 1) with 1. change (Z.of_nat 0) with 0. rewrite Z.pow_1_r, Z.pow_0_r. lia.
  - rewrite Nat2Z.inj_succ, Z.pow_succ_r in H by lia. split; [apply Z.div_pos; lia|]. apply Z.div_lt_upper_bound; lia.
Qed.
Lemma ow_key e : wf_key e -> exists d, enc_0a00 e = Ok d /\ on_wire (key_layout e) d.
Proof.
  destruct e as [[[x [n|]]|]]; unfold wf_key, key_layout; cbn [a0a00_key]; try tauto. intros [Hx Hn].
  unfold enc_0a00. cbn [a0a00_key]. rewrite n_size_128 by auto. change (negb (128 =? 128)) with false. cbv iota.
  eexists. split; [reflexivity|]. cbn [concat app]. rewrite app_nil_r, u32_id by auto. ow1. apply ow_one.
  change (Z.to_nat 128) with 128%nat. rewrite w_fixed_pad; rewrite be_bytes_len; [|lia]. rewrite Nat.sub_diag, app_nil_r.
  assert (0 < 2 ^ 1016) by (apply Z.pow_pos_nonneg; lia). assert (P : 256 ^ Z.of_nat 128 = 2 ^ 1024) by reflexivity.
  constructor; [apply be_bytes_len|apply be_bytes_ok|]. rewrite Z.abs_eq by lia. apply value_be. rewrite P. lia.
Qed.

(** ** 0x0107, 0x0705 *)
Lemma shows_sim s : Forall (fun c => 48 <= c <= 57) s -> zlen s <= 20 -> shows (Dig (sim_digits s)) (string_to_bcd_n s 10).
Proof.
  intros H Hl. set (ds := map (fun c => c - 48) s).
  assert (E : s = chars ds). { unfold ds, chars. rewrite map_map. rewrite <- (map_id s) at 1. apply map_ext. intros; lia. }
  assert (D : digits ds). { unfold ds, digits. apply Forall_map. eapply Forall_impl; [|exact H]. unfold is_digit. cbv beta. intros; lia. }
  assert (L : length ds = length s) by (unfold ds; apply map_length). unfold zlen in Hl.
  rewrite E at 2. rewrite bcd_n_pairs by (auto; lia). rewrite L. unfold sim_digits. constructor.
Qed.
Lemma shows_clock t : ns_hour <= t < 24 * ns_hour ->
  shows (Dig (day_clock t)) (w_fixed (string_to_bcd (can_clock (clamp_0705 t))) 5).
Proof.
  intros H. rewrite can_clock_chars, clamp_mod by auto.
  assert (D : digits (clock_digits t)) by (apply clock_digits_ok; unfold ns_hour in *; lia).
  rewrite string_to_bcd_pack. assert (E : even_pad (clock_digits t) = clock_digits t) by reflexivity. rewrite E.
  rewrite pairs_pack by (auto; reflexivity). rewrite w_fixed_pad by (cbn; lia).
  replace (day_clock t) with (clock_digits t); [cbn [clock_digits pairs length Nat.sub repeat app]; apply (ShDig (clock_digits t))|].
  unfold clock_digits, day_clock, ns_hour, ns_ms in *. cbn [digits_of app].
  repeat first [apply f_equal2; [lia|]|reflexivity].
Qed.

(** ** All types *)
Lemma ow_numbers w f (P : Z -> Prop) l : (forall v, P v -> shows (Num w v) (f v)) -> Forall P l ->
  on_wire (concat (map (fun i => [Num w i]) l)) (concat (map f l)).
Proof. intros H. apply ow_map. intros. apply ow_one. auto. Qed.
Lemma ow_ids e : wf_ids is_u32 (ti_ids e) 255 -> on_wire (counted_list 1 (fun i => [Num 4 i]) (ti_ids e)) (enc_ids e).
Proof.
  intros [H1 H2]. unfold enc_ids, counted_list. rewrite (u8_len _ 255) by lia. cbn [concat]. rewrite app_nil_r. ow1.
  eapply ow_numbers; [|exact H1]. apply shows_4.
Qed.
Lemma ow_data e : is_byte (td_type e) -> on_wire [Num 1 (td_type e); Raw (td_data e)] (enc_data e).
Proof. intros. unfold enc_data. ow. Qed.
Lemma ow_text env e : is_byte (tt_flag e) /\ text_opt env (tt_text e) ->
  exists d, enc_text env e = Ok d /\ on_wire (Num 1 (tt_flag e) :: last_text env (tt_text e)) d.
Proof.
  intros [H1 H2]. destruct (w_str_last env _ H2) as (d & E & W). unfold enc_text. rewrite E. cbn [bind]. eexists. split; [reflexivity|].
  cbn [concat]. rewrite app_nil_r. ow1. auto.
Qed.
Lemma ow_0201 env e : is_u16 (a0201_serial e) /\ wf_0200 env (a0201_loc e) ->
  on_wire (Num 2 (a0201_serial e) :: loc_layout env (a0201_loc e)) (enc_0201 env e).
Proof. intros [H1 H2]. unfold enc_0201. cbn [concat]. rewrite app_nil_r. ow1. apply ow_loc. auto. Qed.
Lemma ow_bytes_2 a b : is_byte a -> is_byte b -> on_wire [Num 1 a; Num 1 b] [a; b].
Proof. intros. apply (OwCons _ _ [a] [b]); [apply (shows_1 a); auto|]. apply ow_one. apply (shows_1 b); auto. Qed.
Lemma ow_byte_1 a : is_byte a -> on_wire [Num 1 a] [a].
Proof. intros. apply ow_one. apply (shows_1 a); auto. Qed.
Lemma ow_0100 env e : wf env (E0100 e) -> exists d, enc_0100 env e = Ok d /\ on_wire (layout env (E0100 e)) d.
Proof.
  intros (H1 & H2 & H3 & H4 & H5 & H6 & H7). destruct (w_str_last env _ H7) as (d & E & W). unfold enc_0100. rewrite E. cbn [bind].
  eexists. split; [reflexivity|]. cbn [layout concat app]. rewrite app_nil_r. do 6 ow1. auto.
Qed.
Lemma ow_0104 env e : wf env (E0104 e) -> exists d, enc_0104 e = Ok d /\ on_wire (layout env (E0104 e)) d.
Proof.
  intros (H1 & H2 & H3). destruct (ow_mapM _ _ _ _ ow_param H2) as (ds & E & W). unfold enc_0104. rewrite E. cbn [bind].
  eexists. split; [reflexivity|]. cbn [layout concat app]. unfold counted_list. rewrite app_nil_r, (u8_len _ 255) by lia. do 2 ow1. auto.
Qed.
Lemma ow_8103 env e : wf env (E8103 e) -> exists d, enc_8103 e = Ok d /\ on_wire (layout env (E8103 e)) d.
Proof.
  intros (H2 & H3). destruct (ow_mapM _ _ _ _ ow_param H2) as (ds & E & W). unfold enc_8103. rewrite E. cbn [bind].
  eexists. split; [reflexivity|]. cbn [layout concat app]. unfold counted_list. rewrite app_nil_r, (u8_len _ 255) by lia. do 1 ow1. auto.
Qed.
Lemma ow_0107 env e : wf env (E0107 e) -> on_wire (layout env (E0107 e)) (enc_0107 e).
Proof.
  intros (H1 & H2 & H3 & H4 & (H5 & H6 & _) & H7 & H8 & H9 & H10). pose proof H7 as (_ & _ & L7). pose proof H8 as (_ & _ & L8).
  unfold enc_0107. rewrite !(u8_len _ 255) by lia. cbn [layout concat app]. rewrite app_nil_r. do 4 ow1.
  apply OwCons; [apply shows_sim; auto|]. ow.
Qed.
Lemma ow_0702 env e : wf env (E0702 e) -> exists d, enc_0702 env e = Ok d /\ on_wire (layout env (E0702 e)) d.
Proof.
  intros (H1 & H2 & H3 & (H4 & L4) & (H5 & L5) & (H6 & L6) & H7). unfold enc_0702. rewrite !w_str_gb by auto. cbn [bind].
  fold (gb env (a0702_name e)) in L4. fold (gb env (a0702_number e)) in L5. fold (gb env (a0702_company e)) in L6.
  eexists. split; [reflexivity|]. cbn [layout concat app]. rewrite app_nil_r, !(u8_len _ 255) by lia. unfold counted_text. cbn [app].
  do 5 ow1. apply OwCons; [apply shows_pad; unfold zlen in L5; lia|]. do 2 ow1. apply ow_one. apply shows_day. auto.
Qed.
Lemma ow_0704 env e : wf env (E0704 e) -> on_wire (layout env (E0704 e)) (enc_0704 env e).
Proof.
  intros (H1 & H2 & H3). unfold enc_0704. rewrite (u16_len _ 65535) by lia. cbn [layout concat app]. rewrite app_nil_r. do 2 ow1.
  eapply ow_map; [|exact H3]. intros p [Hp Hl]. unfold enc_0704_item. cbv zeta. pose proof (loc_len_eq env p Hp) as L.
  assert (Hz : zlen (enc_0200 env p) <= 65535) by (rewrite len_0200, extras_len; lia).
  rewrite (u16_len _ 65535) by lia. rewrite <- L. ow1. apply ow_loc. auto.
Qed.
Lemma ow_0705 env e : wf env (E0705 e) -> on_wire (layout env (E0705 e)) (enc_0705 e).
Proof.
  intros (H1 & H2 & H3 & H4). unfold enc_0705. rewrite (u16_len _ 65535) by lia. cbn [layout concat app]. rewrite app_nil_r. ow1.
  apply OwCons; [apply shows_clock; auto|]. eapply ow_map; [|exact H4]. intros c _. ow.
Qed.
Lemma ow_0801 env e : wf env (E0801 e) -> exists d, enc_0801 env e = Ok d /\ on_wire (layout env (E0801 e)) d.
Proof.
  intros (H1 & H2 & H3). unfold enc_0801. cbv zeta. rewrite with_extras_bare. cbn [layout concat]. rewrite app_nil_r.
  pose proof (ow_app _ _ _ _ (ow_media _ H1) (ow_loc _ _ H2)) as W.
  destruct (a0801_packet e) as [r|]; [destruct H3 as [_ ->]|]; (eexists; split; [reflexivity|]).
  - rewrite app_assoc. apply ow_app; [exact W|]. apply ow_one. constructor.
  - rewrite app_nil_r. exact W.
Qed.
Lemma ow_0802 env e : wf env (E0802 e) -> on_wire (layout env (E0802 e)) (enc_0802 env e).
Proof.
  intros (H1 & H2 & H3). unfold enc_0802. rewrite (u16_len _ 65535) by lia. cbn [layout concat app]. rewrite app_nil_r. unfold counted_list. do 2 ow1.
  eapply ow_map; [|exact H3]. intros i (A & B & C & D & F). unfold enc_0802_item. rewrite with_extras_bare. cbn [concat app]. rewrite app_nil_r.
  do 4 ow1. apply ow_loc. auto.
Qed.
Lemma ow_0805 env e : wf env (E0805 e) -> on_wire (layout env (E0805 e)) (enc_0805 e).
Proof.
  intros (H1 & H2 & H3 & H4). unfold enc_0805. rewrite (u16_len _ 65535) by lia. cbn [layout concat app]. rewrite app_nil_r. unfold counted_list. do 3 ow1.
  eapply ow_numbers; [|exact H3]. apply shows_4.
Qed.
Lemma ow_0901 env e : wf env (E0901 e) -> on_wire (layout env (E0901 e)) (enc_0901 env e).
Proof.
  intros (_ & H). unfold enc_0901. cbv zeta. cbn [layout].
  assert (U : is_u32 (zlen (gz_enc env (a0901_data e)))) by (pose proof (zlen_nonneg (gz_enc env (a0901_data e))); unfold is_u32; lia).
  rewrite u32_id by auto. ow.
Qed.
Lemma ow_8003 env e : wf env (E8003 e) -> on_wire (layout env (E8003 e)) (enc_8003 e).
Proof.
  intros (H1 & H3 & H4). unfold enc_8003. rewrite (u8_len _ 255) by lia. cbn [layout concat app]. rewrite app_nil_r. unfold counted_list. do 2 ow1.
  eapply ow_numbers; [|exact H3]. apply shows_2.
Qed.
Lemma ow_8100 env e : wf env (E8100 e) -> exists d, enc_8100 env e = Ok d /\ on_wire (layout env (E8100 e)) d.
Proof.
  intros (H1 & H2 & H7). destruct (w_str_last env _ H7) as (d & E & W). unfold enc_8100. rewrite E. cbn [bind].
  eexists. split; [reflexivity|]. cbn [layout concat app]. rewrite app_nil_r. do 2 ow1. auto.
Qed.
Lemma ow_8108 env e : wf env (E8108 e) -> exists d, enc_8108 env e = Ok d /\ on_wire (layout env (E8108 e)) d.
Proof.
  intros (H1 & H2 & (H4 & L4) & H5 & H6). unfold enc_8108. rewrite !w_str_gb by auto. cbn [bind].
  fold (gb env (a8108_ver e)) in L4. eexists. split; [reflexivity|]. rewrite !(u8_len _ 255) by lia. unfold layout, counted_text. ow.
Qed.
Lemma ow_8301 env e : wf env (E8301 e) -> exists d, enc_8301 env e = Ok d /\ on_wire (layout env (E8301 e)) d.
Proof.
  intros (H1 & H2 & H3). destruct (ow_mapM _ _ _ _ (ow_labelled env) H3) as (ds & E & W). unfold enc_8301. rewrite E. cbn [bind].
  eexists. split; [reflexivity|]. cbn [layout concat app]. unfold counted_list. rewrite app_nil_r, (u8_len _ 255) by lia. do 2 ow1. auto.
Qed.
Lemma ow_8302 env e : wf env (E8302 e) -> exists d, enc_8302 env e = Ok d /\ on_wire (layout env (E8302 e)) d.
Proof.
  intros (H1 & (H4 & L4) & H3). destruct (ow_mapM _ _ _ _ (ow_labelled env) H3) as (ds & E & W). unfold enc_8302. rewrite w_str_gb by auto. cbn [bind]. rewrite E. cbn [bind].
  fold (gb env (a8302_q e)) in L4. eexists. split; [reflexivity|]. cbn [layout concat app]. unfold counted_text. cbn [app]. rewrite app_nil_r, (u8_len _ 255) by lia. do 3 ow1. auto.
Qed.
Lemma ow_8303 env e : wf env (E8303 e) -> exists d, enc_8303 env e = Ok d /\ on_wire (layout env (E8303 e)) d.
Proof.
  intros (H1 & H2 & H3). destruct (ow_mapM _ _ _ _ (ow_menu env) H3) as (ds & E & W). unfold enc_8303. rewrite E. cbn [bind].
  eexists. split; [reflexivity|]. cbn [layout concat app]. unfold counted_list. rewrite app_nil_r, (u8_len _ 255) by lia. do 2 ow1. auto.
Qed.
Lemma ow_8304 env e : wf env (E8304 e) -> exists d, enc_8304 env e = Ok d /\ on_wire (layout env (E8304 e)) d.
Proof.
  intros (H1 & (H4 & L4)). unfold enc_8304. rewrite w_str_gb by auto. cbn [bind]. fold (gb env (a8304_text e)) in L4.
  eexists. split; [reflexivity|]. rewrite (u16_len _ 65535) by lia. unfold layout, counted_text. ow.
Qed.
Lemma ow_8401 env e : wf env (E8401 e) -> exists d, enc_8401 env e = Ok d /\ on_wire (layout env (E8401 e)) d.
Proof.
  intros (H1 & H2 & H3). destruct (ow_mapM _ _ _ _ (ow_contact env) H3) as (ds & E & W). unfold enc_8401. rewrite E. cbn [bind].
  eexists. split; [reflexivity|]. cbn [layout concat app]. unfold counted_list. rewrite app_nil_r, (u8_len _ 255) by lia. do 2 ow1. auto.
Qed.
Lemma ow_8400 env e : wf env (E8400 e) -> on_wire (layout env (E8400 e)) (enc_8400 env e).
Proof. intros (H1 & H2). unfold enc_8400. rewrite w_str_gb by auto. cbn [layout]. ow. Qed.
Lemma ow_8600 env e : wf env (E8600 e) -> on_wire (layout env (E8600 e)) (enc_8600 env e).
Proof.
  intros (H1 & H2 & H3). unfold enc_8600. rewrite (u8_len _ 255) by lia. cbn [layout concat app]. rewrite app_nil_r. unfold counted_list. do 2 ow1.
  eapply ow_map; [|exact H3]. apply ow_circle.
Qed.
Lemma ow_8602 env e : wf env (E8602 e) -> on_wire (layout env (E8602 e)) (enc_8602 env e).
Proof.
  intros (H1 & H2 & H3). unfold enc_8602. rewrite (u8_len _ 255) by lia. cbn [layout concat app]. rewrite app_nil_r. unfold counted_list. do 2 ow1.
  eapply ow_map; [|exact H3]. apply ow_rect.
Qed.
Lemma ow_8606 env e : wf env (E8606 e) -> on_wire (layout env (E8606 e)) (enc_8606 env e).
Proof.
  intros (H1 & H2 & H3 & H4 & H5 & H6). unfold enc_8606. rewrite (u16_len _ 65535) by lia. cbn [layout concat app]. rewrite app_nil_r. unfold counted_list. do 5 ow1.
  eapply ow_map; [|exact H6]. apply ow_point.
Qed.
Lemma ow_8800 env e : wf env (E8800 e) -> on_wire (layout env (E8800 e)) (enc_8800 e).
Proof.
  intros (H1 & H3 & H4). unfold enc_8800. rewrite (u8_len _ 255) by lia. cbn [layout concat app]. rewrite app_nil_r. ow1.
  destruct (a8800_ids e) as [|i l]; [constructor|]. pose proof (zlen_cons i l). pose proof (zlen_nonneg l). replace (zlen (i :: l) =? 0) with false by lia.
  unfold counted_list. ow1. eapply ow_numbers; [|exact H3]. apply shows_2.
Qed.

Lemma layout_ok env e : wf env e -> exists d, encode env e = Ok d /\ on_wire (layout env e) d.
Proof.
  destruct e; cbn [encode];
    try match goal with |- _ -> exists d, Ok _ = Ok d /\ _ => intros H; eexists; split; [reflexivity|] end.
  all: try solve [ constructor | auto using ow_0100, ow_0104, ow_8103, ow_0107, ow_0702, ow_0704, ow_0705, ow_0801, ow_0802, ow_0805, ow_0901,
    ow_8003, ow_8100, ow_8108, ow_8301, ow_8302, ow_8303, ow_8304, ow_8401, ow_8400, ow_8600, ow_8602, ow_8606, ow_8800, ow_poly, ow_key ].
  all: cbn [wf] in *; cbn [layout].
  all: try solve [ apply ow_ids; auto | apply ow_data; apply H | apply ow_text | apply ow_0201; auto | apply ow_loc; auto | apply ow_key | apply ow_media; auto | apply ow_search; auto
    | apply ow_byte_1; auto | apply ow_bytes_2; apply H | apply w_str_last ].
  all: try (decompose [and] H; clear H).
  all: try solve [ unfold enc_0001, enc_0302, enc_0700, enc_0701, enc_8001, enc_8202, enc_8801, enc_8804, enc_8805; ow ].
  unfold enc_8803. cbn [concat app]. rewrite app_nil_r. apply ow_app; [apply ow_search; auto|]. ow.
Qed.
