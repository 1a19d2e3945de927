(** Which field values each message type can carry ([wf_X]), and what the
    receiver should see ([sent_X]): the entity itself up to the precision of the wire
    format (times to the second in local time, coordinates to the micro-degree,
    hemisphere flags normalised, constructor-made bytes of extra items not kept). *)
From Verif Require Import Base LibBase GoTime Decimal Env EntTerm EntPlat Registry SpecGeo.

(** Text the GB18030 codec can represent: encoding succeeds and decoding gives the
    text back, also when followed by the zeros of a fixed-width field; no NUL inside. *)
Definition text_ok (env : Env) (s : bytes) : Prop :=
  exists d, gb_enc env s = (d, false) /\ bytes_ok d /\ no_nul s /\ (d = [] -> s = []) /\
            forall k, gb_dec env (d ++ repeat 0 k) = (s ++ repeat 0 k, false).
(** ... of at most [n] bytes once encoded *)
Definition text_in (env : Env) (s : bytes) (n : Z) : Prop :=
  text_ok env s /\ zlen (fst (gb_enc env s)) <= n.
(** An optional text field at the end of a message. *)
Definition text_opt (env : Env) (s : bytes) : Prop := s = [] \/ text_ok env s.
(** A fixed-width field. *)
Definition fixed_ok (s : bytes) (n : Z) : Prop := bytes_ok s /\ no_nul s /\ zlen s <= n.

Definition wf_param (p : option param) : Prop :=
  match p with
  | Some p => is_u32 (pr_id p) /\ bytes_ok (pr_val p) /\ zlen (pr_val p) <= 255
  | None => False
  end.
Definition wf_params (l : list (option param)) : Prop :=
  Forall wf_param l /\ zlen l <= 255.

(** Extra items *)
Definition extra_val_ok (v : extra_val) : Prop :=
  match v with
  | X01 n | X25 n | X2B n => is_u32 n
  | X02 n | X03 n | X04 n | X2A n => is_u16 n
  | X30 n | X31 n => is_byte n
  | X11 t a => is_byte t /\ (t = 0 /\ a = None \/ t <> 0 /\ exists n, a = Some n /\ is_u32 n)
  | X12 t a d => is_byte t /\ is_u32 a /\ is_byte d
  | X13 r d x => is_u32 r /\ is_u16 d /\ is_byte x
  end.
(** nil, or made by its constructor *)
Definition wf_extra (x : option extra) : Prop :=
  match x with
  | None => True
  | Some x => extra_val_ok (x_val x) /\ x = new_extra (x_val x)
  end.
Definition sent_extra (x : option extra) : list (option extra) :=
  match x with None => [] | Some x => [Some (Extra (x_val x) [])] end.
Definition extra_size (x : option extra) : Z :=
  match x with None => 0 | Some x => 2 + zlen (x_ser x) end.

(** 0x0200 *)
Definition loc_south (e : t0200) : bool := Z.testbit (p_status e) 2 || neg6 (p_lat e).
Definition loc_west (e : t0200) : bool := Z.testbit (p_status e) 3 || neg6 (p_lng e).
Definition wf_0200 (env : Env) (e : t0200) : Prop :=
  is_u32 (p_alarm e) /\ is_u32 (p_status e) /\
  coord_ok (p_lat e) /\ coord_ok (p_lng e) /\
  sign_ok (loc_south e) (p_lat e) /\ sign_ok (loc_west e) (p_lng e) /\
  is_u16 (p_alt e) /\ is_u16 (p_speed e) /\ is_u16 (p_dir e) /\ time_ok env (p_time e) /\
  Forall wf_extra (p_extras e).
Definition sent_0200 (env : Env) (e : t0200) : t0200 :=
  T0200 (p_alarm e) (mark (mark (p_status e) 2 (loc_south e)) 3 (loc_west e))
        (coord6 (p_lat e)) (coord6 (p_lng e)) (p_alt e) (p_speed e) (p_dir e)
        (time_sent env (p_time e)) (concat (map sent_extra (p_extras e))).
(** the form without extra items used by 0x0801 and 0x0802 *)
Definition bare (e : t0200) : t0200 :=
  T0200 (p_alarm e) (p_status e) (p_lat e) (p_lng e) (p_alt e) (p_speed e) (p_dir e) (p_time e) [].

(** Time and speed limits of an area, sent only if bit 0 of the attribute is set. *)
Definition wf_limits (env : Env) (l : limits) : Prop :=
  time_ok env (lm_start l) /\ time_ok env (lm_end l) /\ is_u16 (lm_speed l) /\ is_byte (lm_dur l).
(** No limits: Go's zero values, of which the time is the start of the year 1 in UTC *)
Definition no_limits : limits := Limits (GoTime (-62135596800) 0 0) (GoTime (-62135596800) 0 0) 0 0.
Definition sent_limits (env : Env) (attr : Z) (l : limits) : limits :=
  if Z.testbit attr 0
  then Limits (time_sent env (lm_start l)) (time_sent env (lm_end l)) (lm_speed l) (lm_dur l)
  else no_limits.
Definition wf_limits_if (env : Env) (attr : Z) (l : limits) : Prop :=
  Z.testbit attr 0 = true -> wf_limits env l.

(** 0x8600 *)
Definition ci_south (c : circle) : bool := Z.testbit (ci_attr c) 6 || neg6 (ci_lat c).
Definition ci_west (c : circle) : bool := Z.testbit (ci_attr c) 7 || neg6 (ci_lng c).
Definition wf_circle (env : Env) (c : circle) : Prop :=
  is_u32 (ci_id c) /\ is_u16 (ci_attr c) /\ coord_ok (ci_lat c) /\ coord_ok (ci_lng c) /\
  sign_ok (ci_south c) (ci_lat c) /\ sign_ok (ci_west c) (ci_lng c) /\
  is_u32 (ci_radius c) /\ wf_limits_if env (ci_attr c) (ci_lim c).
Definition sent_circle (env : Env) (c : circle) : circle :=
  Circle (ci_id c) (mark (mark (ci_attr c) 6 (ci_south c)) 7 (ci_west c))
         (coord6 (ci_lat c)) (coord6 (ci_lng c)) (ci_radius c)
         (sent_limits env (ci_attr c) (ci_lim c)).

(** 0x8602: both corners share the hemisphere flags *)
Definition re_south (c : rect) : bool := Z.testbit (re_attr c) 6 || neg6 (re_llat c) || neg6 (re_rlat c).
Definition re_west (c : rect) : bool := Z.testbit (re_attr c) 7 || neg6 (re_llng c) || neg6 (re_rlng c).
Definition wf_rect (env : Env) (c : rect) : Prop :=
  is_u32 (re_id c) /\ is_u16 (re_attr c) /\
  coord_ok (re_llat c) /\ coord_ok (re_llng c) /\ coord_ok (re_rlat c) /\ coord_ok (re_rlng c) /\
  sign_ok (re_south c) (re_llat c) /\ sign_ok (re_west c) (re_llng c) /\
  sign_ok (re_south c) (re_rlat c) /\ sign_ok (re_west c) (re_rlng c) /\
  wf_limits_if env (re_attr c) (re_lim c).
Definition sent_rect (env : Env) (c : rect) : rect :=
  Rect (re_id c) (mark (mark (re_attr c) 6 (re_south c)) 7 (re_west c))
       (coord6 (re_llat c)) (coord6 (re_llng c)) (coord6 (re_rlat c)) (coord6 (re_rlng c))
       (sent_limits env (re_attr c) (re_lim c)).

(** 0x8604: all vertices share the hemisphere flags *)
Definition vs_south (e : t8604) : bool := Z.testbit (a8604_attr e) 6 || existsb (fun v => dcoef (vx_lat v) <? 0) (a8604_vs e).
Definition vs_west (e : t8604) : bool := Z.testbit (a8604_attr e) 7 || existsb (fun v => dcoef (vx_lng v) <? 0) (a8604_vs e).
Definition wf_vertex (south west : bool) (v : vertex) : Prop :=
  coord_ok (vx_lat v) /\ coord_ok (vx_lng v) /\ sign_ok south (vx_lat v) /\ sign_ok west (vx_lng v).
Definition sent_vertex (v : vertex) : vertex := Vertex (coord6 (vx_lat v)) (coord6 (vx_lng v)).
Definition wf_8604 (env : Env) (e : t8604) : Prop :=
  is_u32 (a8604_id e) /\ is_u16 (a8604_attr e) /\ wf_limits_if env (a8604_attr e) (a8604_lim e) /\
  zlen (a8604_vs e) <= 65535 /\ Forall (wf_vertex (vs_south e) (vs_west e)) (a8604_vs e).
Definition sent_8604 (env : Env) (e : t8604) : t8604 :=
  T8604 (a8604_id e) (mark (mark (a8604_attr e) 6 (vs_south e)) 7 (vs_west e))
        (sent_limits env (a8604_attr e) (a8604_lim e)) (map sent_vertex (a8604_vs e)).

(** 0x8606: optional pairs are present together; bits 0 and 1 of the attribute say so *)
Definition present {A} (o : option A) : bool := match o with Some _ => true | None => false end.
Definition wf_pair (a b : option Z) (P Q : Z -> Prop) : Prop :=
  match a, b with
  | Some x, Some y => P x /\ Q y
  | None, None => True
  | _, _ => False
  end.
Definition put_bit (s i : Z) (b : bool) : Z := if b then Z.setbit s i else Z.clearbit s i.
Definition pt_south (p : point) : bool := Z.testbit (pt_attr p) 2 || neg6 (pt_lat p).
Definition pt_west (p : point) : bool := Z.testbit (pt_attr p) 3 || neg6 (pt_lng p).
Definition wf_point (p : point) : Prop :=
  is_u32 (pt_id p) /\ is_u32 (pt_sec p) /\ coord_ok (pt_lat p) /\ coord_ok (pt_lng p) /\
  sign_ok (pt_south p) (pt_lat p) /\ sign_ok (pt_west p) (pt_lng p) /\
  is_byte (pt_width p) /\ is_byte (pt_attr p) /\
  wf_pair (pt_long p) (pt_short p) is_u16 is_u16 /\ wf_pair (pt_speed p) (pt_over p) is_u16 is_byte.
Definition sent_point (p : point) : point :=
  Point (pt_id p) (pt_sec p) (coord6 (pt_lat p)) (coord6 (pt_lng p)) (pt_width p)
        (put_bit (put_bit (mark (mark (pt_attr p) 2 (pt_south p)) 3 (pt_west p))
                          0 (present (pt_long p))) 1 (present (pt_speed p)))
        (pt_long p) (pt_short p) (pt_speed p) (pt_over p).

Definition wf_0800 (h : t0800) : Prop :=
  is_u32 (a0800_media h) /\ is_byte (a0800_type h) /\ is_byte (a0800_coding h) /\
  is_byte (a0800_event h) /\ is_byte (a0800_chan h).
Definition wf_0802_item (env : Env) (i : i0802) : Prop :=
  is_u32 (i0802_media i) /\ is_byte (i0802_type i) /\ is_byte (i0802_chan i) /\
  is_byte (i0802_event i) /\ wf_0200 env (bare (i0802_loc i)).
Definition sent_0802_item (env : Env) (i : i0802) : i0802 :=
  I0802 (i0802_media i) (i0802_type i) (i0802_chan i) (i0802_event i)
        (sent_0200 env (bare (i0802_loc i))).
Definition wf_can (c : can) : Prop :=
  bytes_ok (can_id c) /\ zlen (can_id c) = 4 /\ bytes_ok (can_data c) /\ zlen (can_data c) = 8.
Definition wf_labelled (env : Env) (x : labelled) : Prop :=
  is_byte (lb_id x) /\ text_in env (lb_text x) 255.
Definition wf_contact (env : Env) (c : contact) : Prop :=
  is_byte (ct_flag c) /\ text_in env (ct_number c) 255 /\ text_in env (ct_name c) 255.
Definition wf_ids (P : Z -> Prop) (l : list Z) (n : Z) : Prop := Forall P l /\ zlen l <= n.
Definition wf_8802 (env : Env) (e : t8802) : Prop :=
  is_byte (a8802_type e) /\ is_byte (a8802_chan e) /\ is_byte (a8802_event e) /\
  time_ok env (a8802_start e) /\ time_ok env (a8802_end e).
Definition sent_8802 (env : Env) (e : t8802) : t8802 :=
  T8802 (a8802_type e) (a8802_chan e) (a8802_event e)
        (time_sent env (a8802_start e)) (time_sent env (a8802_end e)).
(** compression yields bytes, decompression gives the data back: some reads, then one that ends the stream *)
Definition gzip_ok (env : Env) (d : bytes) : Prop :=
  bytes_ok (gz_enc env d) /\ exists cs c, gz_dec env (gz_enc env d) = Some (map (fun x => (x, GzMore)) cs ++ [(c, GzEOF)]) /\
               concat cs ++ c = d.
Definition wf_key (e : t0a00) : Prop :=
  match a0a00_key e with
  | Some (x, Some n) => is_u32 x /\ 2 ^ 1016 <= n < 2 ^ 1024
  | _ => False
  end.
(** a date: local midnight between the years 1000 and 9999 *)
Definition date_ok (env : Env) (t : gotime) : Prop :=
  t_zone t = tz_off env /\ (t_sec t + tz_off env) mod 86400 = 0 /\
  -30610224000 <= t_sec t + tz_off env < 253402300800.

Definition wf (env : Env) (e : entity) : Prop :=
  match e with
  | E0001 x => is_u16 (a0001_serial x) /\ is_u16 (a0001_msgid x) /\ is_byte (a0001_result x)
  | E0002 | E0003 | E8104 | E8107 | E8201 | E8702 => True
  | E0100 x => is_u16 (a0100_province x) /\ is_u16 (a0100_city x) /\ fixed_ok (a0100_manu x) 5 /\
      fixed_ok (a0100_model x) 20 /\ fixed_ok (a0100_term x) 7 /\ is_byte (a0100_color x) /\
      text_opt env (a0100_license x)
  | E0102 x => text_opt env (a0102_key x)
  | E0104 x => is_u16 (a0104_serial x) /\ wf_params (a0104_params x)
  | E0107 x => is_u16 (a0107_type x) /\ fixed_ok (a0107_manu x) 5 /\ fixed_ok (a0107_model x) 20 /\
      fixed_ok (a0107_term x) 7 /\
      (Forall (fun c => 48 <= c <= 57) (a0107_sim x) /\ zlen (a0107_sim x) <= 20 /\ forall t, a0107_sim x <> 48 :: t) /\
      fixed_ok (a0107_hw x) 255 /\ fixed_ok (a0107_sw x) 255 /\ is_byte (a0107_gnss x) /\ is_byte (a0107_comm x)
  | E0108 x => is_byte (a0108_type x) /\ is_byte (a0108_result x)
  | E0200 x => wf_0200 env x
  | E0201 x | E0500 x => is_u16 (a0201_serial x) /\ wf_0200 env (a0201_loc x)
  | E0301 x => is_byte (a0301_event x)
  | E0302 x => is_u16 (a0302_serial x) /\ is_byte (a0302_answer x)
  | E0303 x => is_byte (a0303_type x) /\ is_byte (a0303_flag x)
  | E0700 x => is_u16 (a0700_serial x) /\ is_byte (a0700_cmd x) /\ bytes_ok (a0700_data x)
  | E0701 x => is_u32 (a0701_size x) /\ bytes_ok (a0701_content x)
  | E0702 x => is_byte (a0702_state x) /\ time_ok env (a0702_time x) /\ is_byte (a0702_ic x) /\
      text_in env (a0702_name x) 255 /\ text_in env (a0702_number x) 20 /\ text_in env (a0702_company x) 255 /\
      date_ok env (a0702_expiry x)
  | E0704 x => is_byte (a0704_type x) /\ zlen (a0704_items x) <= 65535 /\
      Forall (fun p => wf_0200 env p /\ 28 + fold_right Z.add 0 (map extra_size (p_extras p)) <= 65535) (a0704_items x)
  | E0705 x => ns_hour <= a0705_time x < 24 * ns_hour /\ a0705_time x mod ns_ms = 0 /\
      zlen (a0705_items x) <= 65535 /\ Forall wf_can (a0705_items x)
  | E0800 x => wf_0800 x
  | E0801 x => wf_0800 (a0801_head x) /\ wf_0200 env (bare (a0801_loc x)) /\
      match a0801_packet x with Some r => bytes_ok (rdr_data r) /\ rdr_fail r = false | None => True end
  | E0802 x => is_u16 (a0802_serial x) /\ zlen (a0802_items x) <= 65535 /\ Forall (wf_0802_item env) (a0802_items x)
  | E0805 x => is_u16 (a0805_serial x) /\ is_byte (a0805_result x) /\ wf_ids is_u32 (a0805_ids x) 65535
  | E0900 x | E8700 x | E8701 x | E8900 x => is_byte (td_type x) /\ bytes_ok (td_data x)
  | E0901 x => gzip_ok env (a0901_data x) /\ zlen (gz_enc env (a0901_data x)) < 4294967296
  | E0A00 x | E8A00 x => wf_key x
  | E8001 x => is_u16 (a8001_serial x) /\ is_u16 (a8001_msgid x) /\ is_byte (a8001_result x)
  | E8003 x => is_u16 (a8003_serial x) /\ wf_ids is_u16 (a8003_ids x) 255
  | E8100 x => is_u16 (a8100_serial x) /\ is_byte (a8100_result x) /\ text_opt env (a8100_key x)
  | E8103 x => wf_params (a8103_params x)
  | E8105 x | E8300 x => is_byte (tt_flag x) /\ text_opt env (tt_text x)
  | E8106 x | E8601 x | E8603 x | E8605 x | E8607 x => wf_ids is_u32 (ti_ids x) 255
  | E8108 x => is_byte (a8108_type x) /\ fixed_ok (a8108_manu x) 5 /\ text_in env (a8108_ver x) 255 /\
      is_u32 (a8108_size x) /\ bytes_ok (a8108_data x)
  | E8202 x | E8203 x => is_u16 (a8202_a x) /\ is_u32 (a8202_b x)
  | E8301 x => is_byte (a8301_type x) /\ zlen (a8301_events x) <= 255 /\ Forall (wf_labelled env) (a8301_events x)
  | E8302 x => is_byte (a8302_flag x) /\ text_in env (a8302_q x) 255 /\ Forall (wf_labelled env) (a8302_answers x)
  | E8303 x => is_byte (a8303_type x) /\ zlen (a8303_items x) <= 255 /\ Forall (fun s => text_in env s 65535) (a8303_items x)
  | E8304 x => is_byte (a8304_type x) /\ text_in env (a8304_text x) 65535
  | E8400 x => is_byte (a8400_flag x) /\ text_ok env (a8400_number x)
  | E8401 x => is_byte (a8401_type x) /\ zlen (a8401_contacts x) <= 255 /\ Forall (wf_contact env) (a8401_contacts x)
  | E8500 x => is_byte (a8500_flag x)
  | E8600 x => is_byte (a8600_action x) /\ zlen (a8600_items x) <= 255 /\ Forall (wf_circle env) (a8600_items x)
  | E8602 x => is_byte (a8602_action x) /\ zlen (a8602_items x) <= 255 /\ Forall (wf_rect env) (a8602_items x)
  | E8604 x => wf_8604 env x
  | E8606 x => is_u32 (a8606_id x) /\ is_u16 (a8606_attr x) /\ time_ok env (a8606_start x) /\ time_ok env (a8606_end x) /\
      zlen (a8606_points x) <= 65535 /\ Forall wf_point (a8606_points x)
  | E8800 x => is_u32 (a8800_media x) /\ wf_ids is_u16 (a8800_ids x) 255
  | E8801 x => is_byte (a8801_chan x) /\ is_u16 (a8801_cmd x) /\ is_u16 (a8801_dur x) /\ is_byte (a8801_save x) /\
      is_byte (a8801_res x) /\ is_byte (a8801_qual x) /\ is_byte (a8801_light x) /\ is_byte (a8801_contr x) /\
      is_byte (a8801_sat x) /\ is_byte (a8801_chroma x)
  | E8802 x => wf_8802 env x
  | E8803 x => wf_8802 env (a8803_q x) /\ is_byte (a8803_remove x)
  | E8804 x => is_byte (a8804_cmd x) /\ is_u16 (a8804_dur x) /\ is_byte (a8804_save x) /\ is_byte (a8804_rate x)
  | E8805 x => is_u32 (a8805_media x) /\ is_byte (a8805_remove x)
  end.

(** What the receiver should see. *)
Definition sent (env : Env) (e : entity) : entity :=
  match e with
  | E0200 x => E0200 (sent_0200 env x)
  | E0201 x => E0201 (T0201 (a0201_serial x) (sent_0200 env (a0201_loc x)))
  | E0500 x => E0500 (T0201 (a0201_serial x) (sent_0200 env (a0201_loc x)))
  | E0702 x => E0702 (T0702 (a0702_state x) (time_sent env (a0702_time x)) (a0702_ic x) (a0702_name x)
                            (a0702_number x) (a0702_company x) (time_sent env (a0702_expiry x)))
  | E0704 x => E0704 (T0704 (a0704_type x) (map (sent_0200 env) (a0704_items x)))
  | E0801 x => E0801 (T0801 (a0801_head x) (sent_0200 env (bare (a0801_loc x)))
                            (Some (Rdr (match a0801_packet x with Some r => rdr_data r | None => [] end) false)))
  | E0802 x => E0802 (T0802 (a0802_serial x) (map (sent_0802_item env) (a0802_items x)))
  | E8600 x => E8600 (T8600 (a8600_action x) (map (sent_circle env) (a8600_items x)))
  | E8602 x => E8602 (T8602 (a8602_action x) (map (sent_rect env) (a8602_items x)))
  | E8604 x => E8604 (sent_8604 env x)
  | E8606 x => E8606 (T8606 (a8606_id x) (a8606_attr x) (time_sent env (a8606_start x)) (time_sent env (a8606_end x))
                            (map sent_point (a8606_points x)))
  | E8802 x => E8802 (sent_8802 env x)
  | E8803 x => E8803 (T8803 (sent_8802 env (a8803_q x)) (a8803_remove x))
  | _ => e
  end.

(** What Decode reports as the number of bytes it used. *)
Definition counted (e : entity) (d : bytes) : Z :=
  match e with
  | E0200 _ => 28
  | E0201 _ | E0500 _ => 30
  | E0303 _ => 1
  | E8105 _ | E8300 _ | E8106 _ | E8601 _ | E8603 _ | E8605 _ => zlen d - 1
  | _ => zlen d
  end.

(** The bodies that are encoded but refused by their own decoder: its minimum length
    presupposes at least one element (t808_0x0102.go:24, t808_0x0104.go:39, t808_0x8103.go:34,
    t808_0x8600.go:151, t808_0x8602.go:116, t808_0x8604.go:97). *)
Definition empty {A} (l : list A) : bool := match l with [] => true | _ => false end.
Definition boundary (e : entity) : bool :=
  match e with
  | E0102 x => empty (a0102_key x)
  | E0104 x => empty (a0104_params x)
  | E8103 x => empty (a8103_params x)
  | E8600 x => empty (a8600_items x)
  | E8602 x => empty (a8602_items x)
  | E8604 x => empty (a8604_vs x) && negb (Z.testbit (a8604_attr x) 0)
  | _ => false
  end.
