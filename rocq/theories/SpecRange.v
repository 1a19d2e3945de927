(** What every decoded body satisfies, whatever bytes it was decoded from: each
    numeric field in the range of its Go type, each list no longer than its count
    field allows, texts cut at NUL, times and coordinates in normal form. *)
From Verif Require Import Base LibBase GoTime Decimal Env EntTerm EntPlat Registry SpecGeo SpecEntity.

(** a time of 2010 .. 2099 in the local zone, without fraction *)
Definition dec_time (env : Env) (t : gotime) : Prop := time_ok env t /\ t = time_sent env t.
(** six decimals, below 4294.967296 degrees, sign as the hemisphere flag says *)
Definition hemi_ok (flag : bool) (d : decimal) : Prop :=
  dexp d = -6 /\ if flag then -4294967296 < dcoef d <= 0 else 0 <= dcoef d < 4294967296.
Definition dec_extra (x : option extra) : Prop :=
  match x with Some x => extra_val_ok (x_val x) /\ x_ser x = [] | None => False end.
Definition dec_loc (env : Env) (e : t0200) : Prop :=
  is_u32 (p_alarm e) /\ is_u32 (p_status e) /\
  hemi_ok (Z.testbit (p_status e) 2) (p_lat e) /\ hemi_ok (Z.testbit (p_status e) 3) (p_lng e) /\
  is_u16 (p_alt e) /\ is_u16 (p_speed e) /\ is_u16 (p_dir e) /\ dec_time env (p_time e) /\
  Forall dec_extra (p_extras e).
Definition list_ok {A} (P : A -> Prop) (l : list A) (n : Z) : Prop := Forall P l /\ zlen l <= n.
Definition dec_param (p : option param) : Prop := wf_param p.
Definition dec_limits (env : Env) (attr : Z) (l : limits) : Prop :=
  if Z.testbit attr 0
  then dec_time env (lm_start l) /\ dec_time env (lm_end l) /\ is_u16 (lm_speed l) /\ is_byte (lm_dur l)
  else l = no_limits.
Definition dec_circle (env : Env) (c : circle) : Prop :=
  is_u32 (ci_id c) /\ is_u16 (ci_attr c) /\
  hemi_ok (Z.testbit (ci_attr c) 6) (ci_lat c) /\ hemi_ok (Z.testbit (ci_attr c) 7) (ci_lng c) /\
  is_u32 (ci_radius c) /\ dec_limits env (ci_attr c) (ci_lim c).
Definition dec_rect (env : Env) (c : rect) : Prop :=
  is_u32 (re_id c) /\ is_u16 (re_attr c) /\
  hemi_ok (Z.testbit (re_attr c) 6) (re_llat c) /\ hemi_ok (Z.testbit (re_attr c) 7) (re_llng c) /\
  hemi_ok (Z.testbit (re_attr c) 6) (re_rlat c) /\ hemi_ok (Z.testbit (re_attr c) 7) (re_rlng c) /\
  dec_limits env (re_attr c) (re_lim c).
Definition dec_vertex (attr : Z) (v : vertex) : Prop :=
  hemi_ok (Z.testbit attr 6) (vx_lat v) /\ hemi_ok (Z.testbit attr 7) (vx_lng v).
Definition dec_point (p : point) : Prop :=
  is_u32 (pt_id p) /\ is_u32 (pt_sec p) /\ is_byte (pt_width p) /\ is_byte (pt_attr p) /\
  hemi_ok (Z.testbit (pt_attr p) 2) (pt_lat p) /\ hemi_ok (Z.testbit (pt_attr p) 3) (pt_lng p) /\
  wf_pair (pt_long p) (pt_short p) is_u16 is_u16 /\ present (pt_long p) = Z.testbit (pt_attr p) 0 /\
  wf_pair (pt_speed p) (pt_over p) is_u16 is_byte /\ present (pt_speed p) = Z.testbit (pt_attr p) 1.
Definition dec_item (env : Env) (i : i0802) : Prop :=
  is_u32 (i0802_media i) /\ is_byte (i0802_type i) /\ is_byte (i0802_chan i) /\
  is_byte (i0802_event i) /\ dec_loc env (i0802_loc i).
Definition dec_labelled (x : labelled) : Prop := is_byte (lb_id x) /\ no_nul (lb_text x).
Definition dec_contact (c : contact) : Prop :=
  is_byte (ct_flag c) /\ no_nul (ct_number c) /\ no_nul (ct_name c).
Definition dec_search (env : Env) (e : t8802) : Prop :=
  is_byte (a8802_type e) /\ is_byte (a8802_chan e) /\ is_byte (a8802_event e) /\
  dec_time env (a8802_start e) /\ dec_time env (a8802_end e).

Definition decoded_ok (env : Env) (e : entity) : Prop :=
  match e with
  | E0001 x => is_u16 (a0001_serial x) /\ is_u16 (a0001_msgid x) /\ is_byte (a0001_result x)
  | E0002 | E0003 | E8104 | E8107 | E8201 | E8702 => True
  | E0100 x => is_u16 (a0100_province x) /\ is_u16 (a0100_city x) /\ fixed_ok (a0100_manu x) 5 /\
      fixed_ok (a0100_model x) 20 /\ fixed_ok (a0100_term x) 7 /\ is_byte (a0100_color x) /\ no_nul (a0100_license x)
  | E0102 x => no_nul (a0102_key x)
  | E0104 x => is_u16 (a0104_serial x) /\ list_ok dec_param (a0104_params x) 255
  | E0107 x => is_u16 (a0107_type x) /\ fixed_ok (a0107_manu x) 5 /\ fixed_ok (a0107_model x) 20 /\
      fixed_ok (a0107_term x) 7 /\ zlen (a0107_sim x) <= 20 /\
      fixed_ok (a0107_hw x) 255 /\ fixed_ok (a0107_sw x) 255 /\ is_byte (a0107_gnss x) /\ is_byte (a0107_comm x)
  | E0108 x => is_byte (a0108_type x) /\ is_byte (a0108_result x)
  | E0200 x => dec_loc env x
  | E0201 x | E0500 x => is_u16 (a0201_serial x) /\ dec_loc env (a0201_loc x)
  | E0301 x => is_byte (a0301_event x)
  | E0302 x => is_u16 (a0302_serial x) /\ is_byte (a0302_answer x)
  | E0303 x => is_byte (a0303_type x) /\ is_byte (a0303_flag x)
  | E0700 x => is_u16 (a0700_serial x) /\ is_byte (a0700_cmd x) /\ bytes_ok (a0700_data x)
  | E0701 x => is_u32 (a0701_size x) /\ bytes_ok (a0701_content x)
  | E0702 x => is_byte (a0702_state x) /\ dec_time env (a0702_time x) /\ is_byte (a0702_ic x) /\
      no_nul (a0702_name x) /\ no_nul (a0702_number x) /\ no_nul (a0702_company x) /\
      date_ok env (a0702_expiry x) /\ t_nsec (a0702_expiry x) = 0
  | E0704 x => is_byte (a0704_type x) /\ list_ok (dec_loc env) (a0704_items x) 65535
  | E0705 x => 0 <= a0705_time x < 101 * ns_hour /\ list_ok wf_can (a0705_items x) 65535
  | E0800 x => wf_0800 x
  | E0801 x => wf_0800 (a0801_head x) /\ dec_loc env (a0801_loc x) /\ p_extras (a0801_loc x) = [] /\
      match a0801_packet x with Some r => bytes_ok (rdr_data r) /\ rdr_fail r = false | None => False end
  | E0802 x => is_u16 (a0802_serial x) /\ list_ok (dec_item env) (a0802_items x) 65535
  | E0805 x => is_u16 (a0805_serial x) /\ is_byte (a0805_result x) /\ list_ok is_u32 (a0805_ids x) 65535
  | E0900 x | E8700 x | E8701 x | E8900 x => is_byte (td_type x) /\ bytes_ok (td_data x)
  | E0901 x => True
  | E0A00 x | E8A00 x => match a0a00_key x with Some (e, Some n) => is_u32 e /\ 0 <= n < 2 ^ 1024 | _ => False end
  | E8001 x => is_u16 (a8001_serial x) /\ is_u16 (a8001_msgid x) /\ is_byte (a8001_result x)
  | E8003 x => is_u16 (a8003_serial x) /\ list_ok is_u16 (a8003_ids x) 255
  | E8100 x => is_u16 (a8100_serial x) /\ is_byte (a8100_result x) /\ no_nul (a8100_key x)
  | E8103 x => list_ok dec_param (a8103_params x) 255
  | E8105 x | E8300 x => is_byte (tt_flag x) /\ no_nul (tt_text x)
  | E8106 x | E8601 x | E8603 x | E8605 x | E8607 x => list_ok is_u32 (ti_ids x) 255
  | E8108 x => is_byte (a8108_type x) /\ fixed_ok (a8108_manu x) 5 /\ no_nul (a8108_ver x) /\
      is_u32 (a8108_size x) /\ bytes_ok (a8108_data x)
  | E8202 x | E8203 x => is_u16 (a8202_a x) /\ is_u32 (a8202_b x)
  | E8301 x => is_byte (a8301_type x) /\ list_ok dec_labelled (a8301_events x) 255
  | E8302 x => is_byte (a8302_flag x) /\ no_nul (a8302_q x) /\ Forall dec_labelled (a8302_answers x)
  | E8303 x => is_byte (a8303_type x) /\ list_ok no_nul (a8303_items x) 255
  | E8304 x => is_byte (a8304_type x) /\ no_nul (a8304_text x)
  | E8400 x => is_byte (a8400_flag x) /\ no_nul (a8400_number x)
  | E8401 x => is_byte (a8401_type x) /\ list_ok dec_contact (a8401_contacts x) 255
  | E8500 x => is_byte (a8500_flag x)
  | E8600 x => is_byte (a8600_action x) /\ list_ok (dec_circle env) (a8600_items x) 255
  | E8602 x => is_byte (a8602_action x) /\ list_ok (dec_rect env) (a8602_items x) 255
  | E8604 x => is_u32 (a8604_id x) /\ is_u16 (a8604_attr x) /\ dec_limits env (a8604_attr x) (a8604_lim x) /\
      list_ok (dec_vertex (a8604_attr x)) (a8604_vs x) 65535
  | E8606 x => is_u32 (a8606_id x) /\ is_u16 (a8606_attr x) /\ dec_time env (a8606_start x) /\ dec_time env (a8606_end x) /\
      list_ok dec_point (a8606_points x) 65535
  | E8800 x => is_u32 (a8800_media x) /\ list_ok is_u16 (a8800_ids x) 255
  | E8801 x => is_byte (a8801_chan x) /\ is_u16 (a8801_cmd x) /\ is_u16 (a8801_dur x) /\ is_byte (a8801_save x) /\
      is_byte (a8801_res x) /\ is_byte (a8801_qual x) /\ is_byte (a8801_light x) /\ is_byte (a8801_contr x) /\
      is_byte (a8801_sat x) /\ is_byte (a8801_chroma x)
  | E8802 x => dec_search env x
  | E8803 x => dec_search env (a8803_q x) /\ is_byte (a8803_remove x)
  | E8804 x => is_byte (a8804_cmd x) /\ is_u16 (a8804_dur x) /\ is_byte (a8804_save x) /\ is_byte (a8804_rate x)
  | E8805 x => is_u32 (a8805_media x) /\ is_byte (a8805_remove x)
  end.

(** Types whose reported count covers everything Decode looked at (0x0801 goes
    through DecodePacket, which reports no count). *)
Definition counts_right (typ : Z) : bool :=
  negb (existsb (Z.eqb typ) [512; 513; 771; 1280; 33029; 33030; 33536; 34305; 34307; 34309]).
(** compress/gzip: the reads of a stream come to an end *)
Definition gz_total (env : Env) : Prop := forall z steps, gz_dec env z = Some steps -> exists a c st b,
  steps = map (fun x => (x, GzMore)) a ++ (c, st) :: b /\ st <> GzMore.
