(** Specifications used by the body properties that are not plain round trips. *)
From Verif Require Import Base LibBase GoTime Decimal Env EntTerm EntPlat Registry SpecGeo SpecEntity.

(** ** Hemispheres: magnitude in millionths, sign from the flag *)
Definition hemi (flag : bool) (d : decimal) : decimal :=
  Dec (if flag then - Z.abs (trunc6 d) else Z.abs (trunc6 d)) (-6).
(** [wf_0200] without the demand that flags and signs agree *)
Definition fits_0200 (env : Env) (e : t0200) : Prop :=
  is_u32 (p_alarm e) /\ is_u32 (p_status e) /\ coord_ok (p_lat e) /\ coord_ok (p_lng e) /\
  is_u16 (p_alt e) /\ is_u16 (p_speed e) /\ is_u16 (p_dir e) /\ time_ok env (p_time e) /\
  Forall wf_extra (p_extras e).
Definition arrives_0200 (env : Env) (e : t0200) : t0200 :=
  T0200 (p_alarm e) (mark (mark (p_status e) 2 (loc_south e)) 3 (loc_west e))
        (hemi (loc_south e) (p_lat e)) (hemi (loc_west e) (p_lng e)) (p_alt e) (p_speed e) (p_dir e)
        (time_sent env (p_time e)) (concat (map sent_extra (p_extras e))).
(** assigning new coordinates to an entity *)
Definition set_coords (e : t0200) (c : decimal * decimal) : t0200 :=
  T0200 (p_alarm e) (p_status e) (fst c) (snd c) (p_alt e) (p_speed e) (p_dir e) (p_time e) (p_extras e).
(** encode, assign, encode, assign ... : the entity before its last encoding *)
Fixpoint reused (e : t0200) (cs : list (decimal * decimal)) : t0200 :=
  match cs with [] => e | c :: t => reused (set_coords (upd_0200 e) c) t end.
Definition any_south (e : t0200) (cs : list (decimal * decimal)) : bool :=
  loc_south e || existsb (fun c => neg6 (fst c)) cs.
Definition any_west (e : t0200) (cs : list (decimal * decimal)) : bool :=
  loc_west e || existsb (fun c => neg6 (snd c)) cs.

(** ** Areas *)
Definition fits_rect (env : Env) (c : rect) : Prop :=
  is_u32 (re_id c) /\ is_u16 (re_attr c) /\
  coord_ok (re_llat c) /\ coord_ok (re_llng c) /\ coord_ok (re_rlat c) /\ coord_ok (re_rlng c) /\
  wf_limits_if env (re_attr c) (re_lim c).
Definition arrives_rect (env : Env) (c : rect) : rect :=
  Rect (re_id c) (mark (mark (re_attr c) 6 (re_south c)) 7 (re_west c))
       (hemi (re_south c) (re_llat c)) (hemi (re_west c) (re_llng c))
       (hemi (re_south c) (re_rlat c)) (hemi (re_west c) (re_rlng c))
       (sent_limits env (re_attr c) (re_lim c)).
Definition fits_8604 (env : Env) (e : t8604) : Prop :=
  is_u32 (a8604_id e) /\ is_u16 (a8604_attr e) /\ wf_limits_if env (a8604_attr e) (a8604_lim e) /\
  1 <= zlen (a8604_vs e) <= 65535 /\ Forall (fun v => coord_ok (vx_lat v) /\ coord_ok (vx_lng v)) (a8604_vs e).
Definition arrives_8604 (env : Env) (e : t8604) : t8604 :=
  T8604 (a8604_id e) (mark (mark (a8604_attr e) 6 (vs_south e)) 7 (vs_west e))
        (sent_limits env (a8604_attr e) (a8604_lim e))
        (map (fun v => Vertex (hemi (vs_south e) (vx_lat v)) (hemi (vs_west e) (vx_lng v))) (a8604_vs e)).

(** ** Extra items on the wire: id, length, value *)
Inductive xitem := Known (v : extra_val) | Unknown (id : Z) (data : bytes).
Definition known_id (id : Z) : Prop := In id [1; 2; 3; 4; 17; 18; 19; 37; 42; 43; 48; 49].
Definition item_ok (x : xitem) : Prop :=
  match x with
  | Known v => extra_val_ok v
  | Unknown id d => is_byte id /\ ~ known_id id /\ bytes_ok d /\ zlen d <= 255
  end.
Definition w_area (area : option Z) : bytes := match area with Some a => w_u32 a | None => [] end.
Definition value_wire (v : extra_val) : Z * bytes :=
  match v with
  | X01 n => (1, w_u32 n) | X02 n => (2, w_u16 n) | X03 n => (3, w_u16 n) | X04 n => (4, w_u16 n)
  | X11 t a => (17, w_byte t ++ w_area a)
  | X12 t a d => (18, w_byte t ++ w_u32 a ++ w_byte d)
  | X13 r d x => (19, w_u32 r ++ w_u16 d ++ w_byte x)
  | X25 n => (37, w_u32 n) | X2A n => (42, w_u16 n) | X2B n => (43, w_u32 n)
  | X30 n => (48, w_byte n) | X31 n => (49, w_byte n)
  end.
Definition item_wire (x : xitem) : bytes :=
  match x with
  | Known v => let (id, d) := value_wire v in id :: zlen d :: d
  | Unknown id d => id :: zlen d :: d
  end.
Fixpoint known_values (l : list xitem) : list extra_val :=
  match l with
  | [] => []
  | Known v :: t => v :: known_values t
  | Unknown _ _ :: t => known_values t
  end.
Definition with_items (e : t0200) (xs : list (option extra)) : t0200 :=
  T0200 (p_alarm e) (p_status e) (p_lat e) (p_lng e) (p_alt e) (p_speed e) (p_dir e) (p_time e) xs.

(** ** Gzip reads: the bytes before the first read that is not a plain one *)
Definition gz_stream (cs : list bytes) (c : bytes) (st : gzstat) (rest : list (bytes * gzstat)) : list (bytes * gzstat) :=
  map (fun x => (x, GzMore)) cs ++ (c, st) :: rest.

(** ** Lists longer than their count field: what the count modulo 256 (65536) covers *)
Definition cut8 {A} (l : list A) : list A := firstn (Z.to_nat (zlen l mod 256)) l.
Definition cut16 {A} (l : list A) : list A := firstn (Z.to_nat (zlen l mod 65536)) l.
Definition cut (e : entity) : entity :=
  match e with
  | E0104 x => E0104 (T0104 (a0104_serial x) (cut8 (a0104_params x)))
  | E0704 x => E0704 (T0704 (a0704_type x) (cut16 (a0704_items x)))
  | E0705 x => E0705 (T0705 (a0705_time x) (cut16 (a0705_items x)))
  | E0802 x => E0802 (T0802 (a0802_serial x) (cut16 (a0802_items x)))
  | E0805 x => E0805 (T0805 (a0805_serial x) (a0805_result x) (cut16 (a0805_ids x)))
  | E8003 x => E8003 (T8003 (a8003_serial x) (cut8 (a8003_ids x)))
  | E8103 x => E8103 (T8103 (cut8 (a8103_params x)))
  | E8106 x => E8106 (TIds (cut8 (ti_ids x)))
  | E8301 x => E8301 (T8301 (a8301_type x) (cut8 (a8301_events x)))
  | E8303 x => E8303 (T8303 (a8303_type x) (cut8 (a8303_items x)))
  | E8401 x => E8401 (T8401 (a8401_type x) (cut8 (a8401_contacts x)))
  | E8600 x => E8600 (T8600 (a8600_action x) (cut8 (a8600_items x)))
  | E8601 x => E8601 (TIds (cut8 (ti_ids x)))
  | E8602 x => E8602 (T8602 (a8602_action x) (cut8 (a8602_items x)))
  | E8603 x => E8603 (TIds (cut8 (ti_ids x)))
  | E8604 x => E8604 (T8604 (a8604_id x) (mark (mark (a8604_attr x) 6 (vs_south x)) 7 (vs_west x))
                            (a8604_lim x) (cut16 (a8604_vs x)))
  | E8605 x => E8605 (TIds (cut8 (ti_ids x)))
  | E8606 x => E8606 (T8606 (a8606_id x) (a8606_attr x) (a8606_start x) (a8606_end x) (cut16 (a8606_points x)))
  | E8607 x => E8607 (TIds (cut8 (ti_ids x)))
  | E8800 x => E8800 (T8800 (a8800_media x) (cut8 (a8800_ids x)))
  | _ => e
  end.
(** message types with a counted list of items *)
Definition counted_list (typ : Z) : bool :=
  existsb (Z.eqb typ) [260; 1796; 1797; 2050; 2053; 32771; 33027; 33030; 33537; 33539; 33793;
                       34304; 34305; 34306; 34307; 34308; 34309; 34310; 34311].
(** types whose decoder never looks at the end of the input: further bytes do not matter *)
Definition open_ended (typ : Z) : bool :=
  existsb (Z.eqb typ) [256; 258; 512; 513; 1280; 1792; 1793; 2049; 2304; 33024; 33029; 33032; 33536; 33538;
                       33792; 34560; 34561; 34816; 35072].
