(** The layout of the bytes on the wire: for every message type the fields of the
    standard (JT/T 808-2013) in order, with their widths.  Nothing of the encoder or
    decoder is used here. *)
From Verif Require Import Base GoTime Decimal Env EntTerm EntPlat Registry SpecGeo SpecEntity.

(** Fields *)
Inductive fld :=
| Num (w : nat) (v : Z)          (* unsigned number, [w] bytes, most significant first *)
| Raw (b : bytes)                (* these bytes *)
| Pad (w : nat) (b : bytes)      (* these bytes, filled with zero bytes up to [w] *)
| Dig (ds : list Z)              (* decimal digits, two per byte *)
| Stamp (s : Z)                  (* local time YY MM DD hh mm ss, six bytes of digits *)
| Day (s : Z).                   (* local date YYYY MM DD, four bytes of digits *)

(** the number that bytes denote, most significant first *)
Fixpoint value (b : bytes) : Z :=
  match b with [] => 0 | x :: t => x * 256 ^ zlen t + value t end.
(** two digits per byte, the first in the upper half *)
Fixpoint pairs (ds : list Z) : bytes :=
  match ds with h :: l :: t => (h * 16 + l) :: pairs t | _ => [] end.
(** [n] decimal digits of [v] *)
Fixpoint digits_of (n : nat) (v : Z) : list Z :=
  match n with O => [] | S n' => digits_of n' (v / 10) ++ [v mod 10] end.

(** The calendar: days from 1970-01-01, by the lengths of years and months. *)
Definition leap (y : Z) : bool := (y mod 4 =? 0) && (negb (y mod 100 =? 0) || (y mod 400 =? 0)).
Definition month_days (y : Z) : list Z := [31; if leap y then 29 else 28; 31; 30; 31; 30; 31; 31; 30; 31; 30; 31].
Definition day_number (y m d : Z) : Z :=
  365 * (y - 1970) + ((y - 1) / 4 - (y - 1) / 100 + (y - 1) / 400 - 477) +
  fold_right Z.add 0 (firstn (Z.to_nat (m - 1)) (month_days y)) + (d - 1).
Definition is_date (y m d : Z) : Prop := 1 <= m <= 12 /\ 1 <= d <= nth (Z.to_nat (m - 1)) (month_days y) 0.

(** what the bytes of a field look like *)
Inductive shows : fld -> bytes -> Prop :=
| ShNum w v b : length b = w -> bytes_ok b -> value b = v -> shows (Num w v) b
| ShRaw b : shows (Raw b) b
| ShPad w b k : (length b + k = w)%nat -> shows (Pad w b) (b ++ repeat 0 k)
| ShDig ds : shows (Dig ds) (pairs ds)
| ShStamp y m d hh mm ss : 2000 <= y < 2100 -> is_date y m d -> 0 <= hh < 24 -> 0 <= mm < 60 -> 0 <= ss < 60 ->
    shows (Stamp (day_number y m d * 86400 + hh * 3600 + mm * 60 + ss))
          (pairs (digits_of 2 (y - 2000) ++ digits_of 2 m ++ digits_of 2 d ++ digits_of 2 hh ++ digits_of 2 mm ++ digits_of 2 ss))
| ShDay y m d : 0 <= y < 10000 -> is_date y m d ->
    shows (Day (day_number y m d * 86400)) (pairs (digits_of 4 y ++ digits_of 2 m ++ digits_of 2 d)).
(** ... and of a sequence of fields *)
Inductive on_wire : list fld -> bytes -> Prop :=
| OwNil : on_wire [] []
| OwCons f fs b bs : shows f b -> on_wire fs bs -> on_wire (f :: fs) (b ++ bs).

Section Layout.
Context (env : Env).

(** text in GB18030 *)
Definition gb (s : bytes) : bytes := fst (gb_enc env s).
(** a text at the end of a body, absent if empty *)
Definition last_text (s : bytes) : list fld := match s with [] => [] | _ => [Raw (gb s)] end.
(** a text with its length in front *)
Definition counted_text (w : nat) (s : bytes) : list fld := [Num w (zlen (gb s)); Raw (gb s)].
(** a list with its length in front *)
Definition counted_list {A} (w : nat) (f : A -> list fld) (l : list A) : list fld :=
  Num w (zlen l) :: concat (map f l).
Definition stamp (t : gotime) : fld := Stamp (t_sec t + tz_off env).
Definition coord (d : decimal) : fld := Num 4 (Z.abs (trunc6 d)).

Definition extra_layout (v : extra_val) : list fld :=
  match v with
  | X01 n => [Num 1 1; Num 1 4; Num 4 n]           (* mileage *)
  | X02 n => [Num 1 2; Num 1 2; Num 2 n]           (* fuel *)
  | X03 n => [Num 1 3; Num 1 2; Num 2 n]           (* recorder speed *)
  | X04 n => [Num 1 4; Num 1 2; Num 2 n]           (* event to confirm *)
  | X11 t None => [Num 1 17; Num 1 1; Num 1 t]     (* speeding *)
  | X11 t (Some a) => [Num 1 17; Num 1 5; Num 1 t; Num 4 a]
  | X12 t a d => [Num 1 18; Num 1 6; Num 1 t; Num 4 a; Num 1 d]  (* area entered or left *)
  | X13 r t x => [Num 1 19; Num 1 7; Num 4 r; Num 2 t; Num 1 x]  (* road time *)
  | X25 n => [Num 1 37; Num 1 4; Num 4 n]
  | X2A n => [Num 1 42; Num 1 2; Num 2 n]
  | X2B n => [Num 1 43; Num 1 4; Num 4 n]
  | X30 n => [Num 1 48; Num 1 1; Num 1 n]
  | X31 n => [Num 1 49; Num 1 1; Num 1 n]
  end.
(** position: alarm, status with the hemispheres in bits 2 and 3, latitude, longitude,
    altitude, speed, direction, time, extra items *)
Definition loc_layout (p : t0200) : list fld :=
  [Num 4 (p_alarm p); Num 4 (mark (mark (p_status p) 2 (loc_south p)) 3 (loc_west p));
   coord (p_lat p); coord (p_lng p); Num 2 (p_alt p); Num 2 (p_speed p); Num 2 (p_dir p); stamp (p_time p)] ++
  concat (map (fun x => match x with Some x => extra_layout (x_val x) | None => [] end) (p_extras p)).
(** the bytes of a position *)
Definition extra_len (x : option extra) : Z :=
  match x with
  | None => 0
  | Some x => match x_val x with
              | X01 _ | X25 _ | X2B _ => 6 | X02 _ | X03 _ | X04 _ | X2A _ => 4 | X30 _ | X31 _ => 3
              | X11 _ None => 3 | X11 _ (Some _) => 7 | X12 _ _ _ => 8 | X13 _ _ _ => 9
              end
  end.
Definition loc_len (p : t0200) : Z := 28 + fold_right Z.add 0 (map extra_len (p_extras p)).
Definition param_layout (p : option param) : list fld :=
  match p with Some p => [Num 4 (pr_id p); Num 1 (zlen (pr_val p)); Raw (pr_val p)] | None => [] end.
Definition media_layout (h : t0800) : list fld :=
  [Num 4 (a0800_media h); Num 1 (a0800_type h); Num 1 (a0800_coding h); Num 1 (a0800_event h); Num 1 (a0800_chan h)].
(** time of day: hours, minutes, seconds, milliseconds (four digits) *)
Definition day_clock (ns : Z) : list Z :=
  let ms := ns / 1000000 in
  digits_of 2 (ms / 3600000) ++ digits_of 2 (ms / 60000 mod 60) ++ digits_of 2 (ms / 1000 mod 60) ++ digits_of 4 (ms mod 1000).
Definition key_layout (k : t0a00) : list fld :=
  match a0a00_key k with Some (e, Some n) => [Num 4 e; Num 128 n] | _ => [] end.
Definition labelled_layout (x : labelled) : list fld := Num 1 (lb_id x) :: counted_text 1 (lb_text x).
Definition limits_layout (attr : Z) (l : limits) : list fld :=
  if Z.testbit attr 0 then [stamp (lm_start l); stamp (lm_end l); Num 2 (lm_speed l); Num 1 (lm_dur l)] else [].
Definition circle_layout (c : circle) : list fld :=
  [Num 4 (ci_id c); Num 2 (mark (mark (ci_attr c) 6 (ci_south c)) 7 (ci_west c));
   coord (ci_lat c); coord (ci_lng c); Num 4 (ci_radius c)] ++ limits_layout (ci_attr c) (ci_lim c).
Definition rect_layout (c : rect) : list fld :=
  [Num 4 (re_id c); Num 2 (mark (mark (re_attr c) 6 (re_south c)) 7 (re_west c));
   coord (re_llat c); coord (re_llng c); coord (re_rlat c); coord (re_rlng c)] ++ limits_layout (re_attr c) (re_lim c).
Definition point_layout (p : point) : list fld :=
  [Num 4 (pt_id p); Num 4 (pt_sec p); coord (pt_lat p); coord (pt_lng p); Num 1 (pt_width p);
   Num 1 (put_bit (put_bit (mark (mark (pt_attr p) 2 (pt_south p)) 3 (pt_west p)) 0 (present (pt_long p))) 1 (present (pt_speed p)))] ++
  match pt_long p, pt_short p with Some a, Some b => [Num 2 a; Num 2 b] | _, _ => [] end ++
  match pt_speed p, pt_over p with Some a, Some b => [Num 2 a; Num 1 b] | _, _ => [] end.
Definition search_layout (q : t8802) : list fld :=
  [Num 1 (a8802_type q); Num 1 (a8802_chan q); Num 1 (a8802_event q); stamp (a8802_start q); stamp (a8802_end q)].
(** twenty digits of the SIM number *)
Definition sim_digits (s : bytes) : list Z := repeat 0 (20 - length s) ++ map (fun c => c - 48) s.

(** the fields of every body *)
Definition layout (e : entity) : list fld :=
  match e with
  | E0002 | E0003 | E8104 | E8107 | E8201 | E8702 => []
  | E0001 x => [Num 2 (a0001_serial x); Num 2 (a0001_msgid x); Num 1 (a0001_result x)]
  | E0100 x => [Num 2 (a0100_province x); Num 2 (a0100_city x); Pad 5 (a0100_manu x); Pad 20 (a0100_model x);
                Pad 7 (a0100_term x); Num 1 (a0100_color x)] ++ last_text (a0100_license x)
  | E0102 x => last_text (a0102_key x)
  | E0104 x => Num 2 (a0104_serial x) :: counted_list 1 param_layout (a0104_params x)
  | E0107 x => [Num 2 (a0107_type x); Pad 5 (a0107_manu x); Pad 20 (a0107_model x); Pad 7 (a0107_term x);
                Dig (sim_digits (a0107_sim x)); Num 1 (zlen (a0107_hw x)); Raw (a0107_hw x);
                Num 1 (zlen (a0107_sw x)); Raw (a0107_sw x); Num 1 (a0107_gnss x); Num 1 (a0107_comm x)]
  | E0108 x => [Num 1 (a0108_type x); Num 1 (a0108_result x)]
  | E0200 x => loc_layout x
  | E0201 x | E0500 x => Num 2 (a0201_serial x) :: loc_layout (a0201_loc x)
  | E0301 x => [Num 1 (a0301_event x)]
  | E0302 x => [Num 2 (a0302_serial x); Num 1 (a0302_answer x)]
  | E0303 x => [Num 1 (a0303_type x); Num 1 (a0303_flag x)]
  | E0700 x => [Num 2 (a0700_serial x); Num 1 (a0700_cmd x); Raw (a0700_data x)]
  | E0701 x => [Num 4 (a0701_size x); Raw (a0701_content x)]
  | E0702 x => [Num 1 (a0702_state x); stamp (a0702_time x); Num 1 (a0702_ic x)] ++ counted_text 1 (a0702_name x) ++
               [Pad 20 (gb (a0702_number x))] ++ counted_text 1 (a0702_company x) ++
               [Day (t_sec (a0702_expiry x) + tz_off env)]
  | E0704 x => [Num 2 (zlen (a0704_items x)); Num 1 (a0704_type x)] ++
               concat (map (fun p => Num 2 (loc_len p) :: loc_layout p) (a0704_items x))
  | E0705 x => [Num 2 (zlen (a0705_items x)); Dig (day_clock (a0705_time x))] ++
               concat (map (fun c => [Raw (can_id c); Raw (can_data c)]) (a0705_items x))
  | E0800 x => media_layout x
  | E0801 x => media_layout (a0801_head x) ++ loc_layout (bare (a0801_loc x)) ++
               match a0801_packet x with Some r => [Raw (rdr_data r)] | None => [] end
  | E0802 x => Num 2 (a0802_serial x) ::
               counted_list 2 (fun i => [Num 4 (i0802_media i); Num 1 (i0802_type i); Num 1 (i0802_chan i); Num 1 (i0802_event i)] ++
                                        loc_layout (bare (i0802_loc i))) (a0802_items x)
  | E0805 x => [Num 2 (a0805_serial x); Num 1 (a0805_result x)] ++ counted_list 2 (fun i => [Num 4 i]) (a0805_ids x)
  | E0900 x | E8700 x | E8701 x | E8900 x => [Num 1 (td_type x); Raw (td_data x)]
  | E0901 x => [Num 4 (zlen (gz_enc env (a0901_data x))); Raw (gz_enc env (a0901_data x))]
  | E0A00 x | E8A00 x => key_layout x
  | E8001 x => [Num 2 (a8001_serial x); Num 2 (a8001_msgid x); Num 1 (a8001_result x)]
  | E8003 x => Num 2 (a8003_serial x) :: counted_list 1 (fun i => [Num 2 i]) (a8003_ids x)
  | E8100 x => [Num 2 (a8100_serial x); Num 1 (a8100_result x)] ++ last_text (a8100_key x)
  | E8103 x => counted_list 1 param_layout (a8103_params x)
  | E8105 x | E8300 x => Num 1 (tt_flag x) :: last_text (tt_text x)
  | E8106 x | E8601 x | E8603 x | E8605 x | E8607 x => counted_list 1 (fun i => [Num 4 i]) (ti_ids x)
  | E8108 x => [Num 1 (a8108_type x); Pad 5 (a8108_manu x)] ++ counted_text 1 (a8108_ver x) ++
               [Num 4 (a8108_size x); Raw (a8108_data x)]
  | E8202 x | E8203 x => [Num 2 (a8202_a x); Num 4 (a8202_b x)]
  | E8301 x => Num 1 (a8301_type x) :: counted_list 1 labelled_layout (a8301_events x)
  | E8302 x => Num 1 (a8302_flag x) :: counted_text 1 (a8302_q x) ++ concat (map labelled_layout (a8302_answers x))
  | E8303 x => Num 1 (a8303_type x) :: counted_list 1 (counted_text 2) (a8303_items x)
  | E8304 x => Num 1 (a8304_type x) :: counted_text 2 (a8304_text x)
  | E8400 x => [Num 1 (a8400_flag x); Raw (gb (a8400_number x))]
  | E8401 x => Num 1 (a8401_type x) ::
               counted_list 1 (fun c => Num 1 (ct_flag c) :: counted_text 1 (ct_number c) ++ counted_text 1 (ct_name c)) (a8401_contacts x)
  | E8500 x => [Num 1 (a8500_flag x)]
  | E8600 x => Num 1 (a8600_action x) :: counted_list 1 circle_layout (a8600_items x)
  | E8602 x => Num 1 (a8602_action x) :: counted_list 1 rect_layout (a8602_items x)
  | E8604 x => [Num 4 (a8604_id x); Num 2 (mark (mark (a8604_attr x) 6 (vs_south x)) 7 (vs_west x))] ++
               limits_layout (a8604_attr x) (a8604_lim x) ++
               counted_list 2 (fun v => [coord (vx_lat v); coord (vx_lng v)]) (a8604_vs x)
  | E8606 x => [Num 4 (a8606_id x); Num 2 (a8606_attr x); stamp (a8606_start x); stamp (a8606_end x)] ++
               counted_list 2 point_layout (a8606_points x)
  | E8800 x => Num 4 (a8800_media x) ::
               match a8800_ids x with [] => [] | l => counted_list 1 (fun i => [Num 2 i]) l end
  | E8801 x => [Num 1 (a8801_chan x); Num 2 (a8801_cmd x); Num 2 (a8801_dur x); Num 1 (a8801_save x); Num 1 (a8801_res x);
                Num 1 (a8801_qual x); Num 1 (a8801_light x); Num 1 (a8801_contr x); Num 1 (a8801_sat x); Num 1 (a8801_chroma x)]
  | E8802 x => search_layout x
  | E8803 x => search_layout (a8803_q x) ++ [Num 1 (a8803_remove x)]
  | E8804 x => [Num 1 (a8804_cmd x); Num 2 (a8804_dur x); Num 1 (a8804_save x); Num 1 (a8804_rate x)]
  | E8805 x => [Num 4 (a8805_media x); Num 1 (a8805_remove x)]
  end.

End Layout.

(** The message ID of every body. *)
Definition type_number (e : entity) : Z :=
  match e with
  | E0001 _ => 0x0001 | E0002 => 0x0002 | E0003 => 0x0003 | E0100 _ => 0x0100 | E0102 _ => 0x0102 | E0104 _ => 0x0104
  | E0107 _ => 0x0107 | E0108 _ => 0x0108 | E0200 _ => 0x0200 | E0201 _ => 0x0201 | E0301 _ => 0x0301 | E0302 _ => 0x0302
  | E0303 _ => 0x0303 | E0500 _ => 0x0500 | E0700 _ => 0x0700 | E0701 _ => 0x0701 | E0702 _ => 0x0702 | E0704 _ => 0x0704
  | E0705 _ => 0x0705 | E0800 _ => 0x0800 | E0801 _ => 0x0801 | E0802 _ => 0x0802 | E0805 _ => 0x0805 | E0900 _ => 0x0900
  | E0901 _ => 0x0901 | E0A00 _ => 0x0A00 | E8001 _ => 0x8001 | E8003 _ => 0x8003 | E8100 _ => 0x8100 | E8103 _ => 0x8103
  | E8104 => 0x8104 | E8105 _ => 0x8105 | E8106 _ => 0x8106 | E8107 => 0x8107 | E8108 _ => 0x8108 | E8201 => 0x8201
  | E8202 _ => 0x8202 | E8203 _ => 0x8203 | E8300 _ => 0x8300 | E8301 _ => 0x8301 | E8302 _ => 0x8302 | E8303 _ => 0x8303
  | E8304 _ => 0x8304 | E8400 _ => 0x8400 | E8401 _ => 0x8401 | E8500 _ => 0x8500 | E8600 _ => 0x8600 | E8601 _ => 0x8601
  | E8602 _ => 0x8602 | E8603 _ => 0x8603 | E8604 _ => 0x8604 | E8605 _ => 0x8605 | E8606 _ => 0x8606 | E8607 _ => 0x8607
  | E8700 _ => 0x8700 | E8701 _ => 0x8701 | E8702 => 0x8702 | E8800 _ => 0x8800 | E8801 _ => 0x8801 | E8802 _ => 0x8802
  | E8803 _ => 0x8803 | E8804 _ => 0x8804 | E8805 _ => 0x8805 | E8900 _ => 0x8900 | E8A00 _ => 0x8A00
  end.

(** The header: message ID, property word (length in bits 0 to 9, encryption in 10, more
    than one packet in 13), twelve digits of the terminal number, serial number, and for
    packets the number of packets and the number of this one. *)
Definition header_layout (id prop icc serial : Z) (packet : option (Z * Z)) : list fld :=
  [Num 2 id; Num 2 prop; Dig (digits_of 12 icc); Num 2 serial] ++
  match packet with Some (sum, seq) => [Num 2 sum; Num 2 seq] | None => [] end.
