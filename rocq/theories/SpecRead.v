(** What a decoder may accept: for every message type the fields of a body in order and,
    for each kind of field, the bytes from which its value may be read.  Unlike the
    layout of SpecWire.v, which fixes the bytes of a well-formed body, this covers all
    bodies that are accepted.  Nothing of the encoders or decoders is used here. *)
From Verif Require Import Base GoTime Decimal Env EntTerm EntPlat Registry SpecGeo SpecEntity SpecRange SpecBody SpecWire.

(** Kinds of fields *)
Inductive rfld :=
| As (f : fld)                         (* a field in its form of the standard *)
| Bin (w : nat) (b : bytes)            (* [w] bytes as they are *)
| Cut (w : nat) (s : bytes)            (* [w] bytes, of which those before the first zero count *)
| CCut (s : bytes)                     (* the same, with the number of bytes in front *)
| Deg (neg : bool) (c : decimal)       (* millionths of a degree without sign, the sign known *)
| When (t : gotime)                    (* local time *)
| Upto (t : gotime)                    (* local date *)
| Nib (s : bytes)                      (* ten bytes of half-byte characters, leading zeros dropped *)
| Clock (ns : Z)                       (* time of day of CAN data *)
| FText (w : nat) (s : bytes)          (* text in [w] bytes *)
| CText (w : nat) (s : bytes)          (* text, with its number of bytes in [w] bytes in front *)
| Text (s : bytes)                     (* text to the end of the body *)
| OText (s : bytes)                    (* the same, absent if no bytes are left *)
| Rest (b : bytes)                     (* all further bytes *)
| OIds (l : list Z)                    (* counted numbers, absent if no bytes are left *)
| Items (xs : list (option extra))     (* extra items to the end of the body *)
| Zip (d : bytes)                      (* compressed data with the number of its bytes in front *)
| Sub (fs : list rfld)                 (* fields with the number of their bytes in front *)
| Must (P : Prop)                      (* no bytes; what the value is otherwise *)
| End.                                 (* no bytes may follow *)

(** the bytes before the first zero *)
Definition before_nul (b s : bytes) : Prop := ~ In 0 s /\ (b = s \/ exists r, b = s ++ 0 :: r).
(** half a byte per character *)
Definition nibbles (l : list Z) : Prop := Forall (fun n => 0 <= n < 16) l.
(** decimal value of digits; halves above nine make it zero *)
Definition dec_value (l : list Z) : Z :=
  if forallb (fun n => n <=? 9) l then fold_left (fun a n => a * 10 + n) l 0 else 0.

(** extra items to the end, of which those with an unknown number do not count *)
Inductive items : list extra_val -> bytes -> Prop :=
| ItEnd tail : zlen tail <= 1 -> items [] tail
| ItKept v vs b r : extra_val_ok v -> on_wire (extra_layout v) b -> items vs r -> items (v :: vs) (b ++ r)
| ItSkipped id d vs b r : ~ known_id id -> on_wire [Num 1 id; Num 1 (zlen d); Raw d] b -> items vs r -> items vs (b ++ r).

Section Read.
Context (env : Env).

(** text of bytes *)
Definition is_text (b s : bytes) : Prop := exists t, gb_dec env b = (t, false) /\ before_nul t s.
(** data of a compressed stream: what could be read before its end or its first error *)
Definition is_unzipped (z d : bytes) : Prop := exists cs c st rest,
  gz_dec env z = Some (gz_stream cs c st rest) /\ st <> GzMore /\
  d = concat cs ++ match st with GzEOF => c | _ => [] end.

(** [holds f b next]: the bytes [b], followed by [next], are field [f]. *)
Inductive holds : rfld -> bytes -> bytes -> Prop :=
| HAs f b d : shows f b -> holds (As f) b d
| HBin w b d : length b = w -> holds (Bin w b) b d
| HCut w s b d : length b = w -> before_nul b s -> holds (Cut w s) b d
| HCCut s n b d : zlen b = n -> before_nul b s -> holds (CCut s) (n :: b) d
| HDeg neg b d : length b = 4%nat -> bytes_ok b ->
    holds (Deg neg (Dec (if neg then - value b else value b) (-6))) b d
| HWhen t b d : dec_time env t -> shows (stamp env t) b -> holds (When t) b d
| HUpto t b d : date_ok env t -> t_nsec t = 0 -> shows (Day (t_sec t + tz_off env)) b -> holds (Upto t) b d
| HNib k ns d : (k + length ns = 20)%nat -> nibbles ns -> (forall t, ns <> 0 :: t) ->
    holds (Nib (map (fun n => n + 48) ns)) (pairs (repeat 0 k ++ ns)) d
| HClock h1 h2 m1 m2 s1 s2 f1 f2 f3 f4 d : nibbles [h1; h2; m1; m2; s1; s2; f1; f2; f3; f4] -> h1 * 16 + h2 <> 0 ->
    holds (Clock (dec_value [h1; h2] * 3600000000000 + dec_value [m1; m2] * 60000000000 +
                  dec_value [s1; s2] * 1000000000 + dec_value [f1; f2; f3; f4] * 1000000))
          (pairs [h1; h2; m1; m2; s1; s2; f1; f2; f3; f4]) d
| HFText w s b d : length b = w -> is_text b s -> holds (FText w s) b d
| HCText w s c b d : length c = w -> bytes_ok c -> value c = zlen b -> is_text b s -> holds (CText w s) (c ++ b) d
| HText s b : is_text b s -> holds (Text s) b []
| HOText0 : holds (OText []) [] []
| HOText s b : b <> [] -> is_text b s -> holds (OText s) b []
| HRest b : holds (Rest b) b []
| HOIds0 : holds (OIds []) [] []
| HOIds l b d : on_wire (SpecWire.counted_list 1 (fun i => [Num 2 i]) l) b -> holds (OIds l) b d
| HItems vs b : items vs b -> holds (Items (map (fun v => Some (Extra v [])) vs)) b []
| HZip d c z n : length c = 4%nat -> bytes_ok c -> value c = zlen z -> is_unzipped z d -> holds (Zip d) (c ++ z) n
| HSub fs c b d : length c = 2%nat -> bytes_ok c -> value c = zlen b -> takes fs b [] -> holds (Sub fs) (c ++ b) d
| HMust (P : Prop) d : P -> holds (Must P) [] d
| HEnd : holds End [] []
(** [takes fs d rest]: [d] begins with the fields [fs], and [rest] remains. *)
with takes : list rfld -> bytes -> bytes -> Prop :=
| TkNil d : takes [] d d
| TkCons f fs b d rest : holds f b d -> takes fs d rest -> takes (f :: fs) (b ++ d) rest.

Definition num (w : nat) (v : Z) : rfld := As (Num w v).
Definition many {A} (w : nat) (f : A -> list rfld) (l : list A) : list rfld := num w (zlen l) :: concat (map f l).

Definition fix_reading (p : t0200) : list rfld :=
  [num 4 (p_alarm p); num 4 (p_status p); Deg (Z.testbit (p_status p) 2) (p_lat p);
   Deg (Z.testbit (p_status p) 3) (p_lng p); num 2 (p_alt p); num 2 (p_speed p); num 2 (p_dir p); When (p_time p)].
Definition loc_reading (p : t0200) : list rfld := fix_reading p ++ [Items (p_extras p)].
Definition bare_reading (p : t0200) : list rfld := fix_reading p ++ [Must (p_extras p = [])].
Definition param_reading (p : option param) : list rfld :=
  match p with
  | Some p => [num 4 (pr_id p); num 1 (zlen (pr_val p)); As (Raw (pr_val p))]
  | None => [Must False]
  end.
Definition media_reading (h : t0800) : list rfld :=
  [num 4 (a0800_media h); num 1 (a0800_type h); num 1 (a0800_coding h); num 1 (a0800_event h); num 1 (a0800_chan h)].
Definition key_reading (k : t0a00) : list rfld :=
  match a0a00_key k with Some (e, Some n) => [num 4 e; num 128 n] | _ => [Must False] end.
Definition labelled_reading (x : labelled) : list rfld := [num 1 (lb_id x); CText 1 (lb_text x)].
Definition limits_reading (attr : Z) (l : limits) : list rfld :=
  if Z.testbit attr 0 then [When (lm_start l); When (lm_end l); num 2 (lm_speed l); num 1 (lm_dur l)]
  else [Must (l = no_limits)].
Definition circle_reading (c : circle) : list rfld :=
  [num 4 (ci_id c); num 2 (ci_attr c); Deg (Z.testbit (ci_attr c) 6) (ci_lat c);
   Deg (Z.testbit (ci_attr c) 7) (ci_lng c); num 4 (ci_radius c)] ++ limits_reading (ci_attr c) (ci_lim c).
Definition rect_reading (c : rect) : list rfld :=
  [num 4 (re_id c); num 2 (re_attr c); Deg (Z.testbit (re_attr c) 6) (re_llat c); Deg (Z.testbit (re_attr c) 7) (re_llng c);
   Deg (Z.testbit (re_attr c) 6) (re_rlat c); Deg (Z.testbit (re_attr c) 7) (re_rlng c)] ++ limits_reading (re_attr c) (re_lim c).
(** two numbers that are there together, or not at all *)
Definition pair_reading (flag : bool) (w : nat) (a b : option Z) : list rfld :=
  match flag, a, b with
  | true, Some x, Some y => [num 2 x; num w y]
  | false, None, None => []
  | _, _, _ => [Must False]
  end.
Definition point_reading (p : point) : list rfld :=
  [num 4 (pt_id p); num 4 (pt_sec p); Deg (Z.testbit (pt_attr p) 2) (pt_lat p); Deg (Z.testbit (pt_attr p) 3) (pt_lng p);
   num 1 (pt_width p); num 1 (pt_attr p)] ++
  pair_reading (Z.testbit (pt_attr p) 0) 2 (pt_long p) (pt_short p) ++
  pair_reading (Z.testbit (pt_attr p) 1) 1 (pt_speed p) (pt_over p).
Definition search_reading (q : t8802) : list rfld :=
  [num 1 (a8802_type q); num 1 (a8802_chan q); num 1 (a8802_event q); When (a8802_start q); When (a8802_end q)].

(** the fields of every body *)
Definition reading (e : entity) : list rfld :=
  match e with
  | E0002 | E0003 | E8104 | E8107 | E8201 | E8702 => []
  | E0001 x => [num 2 (a0001_serial x); num 2 (a0001_msgid x); num 1 (a0001_result x)]
  | E0100 x => [num 2 (a0100_province x); num 2 (a0100_city x); Cut 5 (a0100_manu x); Cut 20 (a0100_model x);
                Cut 7 (a0100_term x); num 1 (a0100_color x); OText (a0100_license x)]
  | E0102 x => [Text (a0102_key x)]
  | E0104 x => num 2 (a0104_serial x) :: many 1 param_reading (a0104_params x)
  | E0107 x => [num 2 (a0107_type x); Cut 5 (a0107_manu x); Cut 20 (a0107_model x); Cut 7 (a0107_term x);
                Nib (a0107_sim x); CCut (a0107_hw x); CCut (a0107_sw x); num 1 (a0107_gnss x); num 1 (a0107_comm x)]
  | E0108 x => [num 1 (a0108_type x); num 1 (a0108_result x)]
  | E0200 x => loc_reading x
  | E0201 x | E0500 x => num 2 (a0201_serial x) :: loc_reading (a0201_loc x)
  | E0301 x => [num 1 (a0301_event x)]
  | E0302 x => [num 2 (a0302_serial x); num 1 (a0302_answer x)]
  | E0303 x => [num 1 (a0303_type x); num 1 (a0303_flag x)]
  | E0700 x => [num 2 (a0700_serial x); num 1 (a0700_cmd x); Rest (a0700_data x)]
  | E0701 x => [num 4 (a0701_size x); Rest (a0701_content x)]
  | E0702 x => [num 1 (a0702_state x); When (a0702_time x); num 1 (a0702_ic x); CText 1 (a0702_name x);
                FText 20 (a0702_number x); CText 1 (a0702_company x); Upto (a0702_expiry x)]
  | E0704 x => [num 2 (zlen (a0704_items x)); num 1 (a0704_type x)] ++ map (fun p => Sub (loc_reading p)) (a0704_items x)
  | E0705 x => [num 2 (zlen (a0705_items x)); Clock (a0705_time x)] ++
               concat (map (fun c => [Bin 4 (can_id c); Bin 8 (can_data c)]) (a0705_items x))
  | E0800 x => media_reading x
  | E0801 x => media_reading (a0801_head x) ++ bare_reading (a0801_loc x) ++
               match a0801_packet x with Some r => [Must (rdr_fail r = false); Rest (rdr_data r)] | None => [Must False] end
  | E0802 x => num 2 (a0802_serial x) ::
               many 2 (fun i => [num 4 (i0802_media i); num 1 (i0802_type i); num 1 (i0802_chan i); num 1 (i0802_event i)] ++
                                bare_reading (i0802_loc i)) (a0802_items x)
  | E0805 x => [num 2 (a0805_serial x); num 1 (a0805_result x)] ++ many 2 (fun i => [num 4 i]) (a0805_ids x)
  | E0900 x | E8700 x | E8701 x | E8900 x => [num 1 (td_type x); Rest (td_data x)]
  | E0901 x => [Zip (a0901_data x)]
  | E0A00 x | E8A00 x => key_reading x
  | E8001 x => [num 2 (a8001_serial x); num 2 (a8001_msgid x); num 1 (a8001_result x)]
  | E8003 x => num 2 (a8003_serial x) :: many 1 (fun i => [num 2 i]) (a8003_ids x)
  | E8100 x => [num 2 (a8100_serial x); num 1 (a8100_result x); OText (a8100_key x)]
  | E8103 x => many 1 param_reading (a8103_params x)
  | E8105 x | E8300 x => [num 1 (tt_flag x); OText (tt_text x)]
  | E8106 x | E8601 x | E8603 x | E8605 x | E8607 x => many 1 (fun i => [num 4 i]) (ti_ids x)
  | E8108 x => [num 1 (a8108_type x); Cut 5 (a8108_manu x); CText 1 (a8108_ver x); num 4 (a8108_size x); Rest (a8108_data x)]
  | E8202 x | E8203 x => [num 2 (a8202_a x); num 4 (a8202_b x)]
  | E8301 x => num 1 (a8301_type x) :: many 1 labelled_reading (a8301_events x)
  | E8302 x => [num 1 (a8302_flag x); CText 1 (a8302_q x)] ++ concat (map labelled_reading (a8302_answers x)) ++ [End]
  | E8303 x => num 1 (a8303_type x) :: many 1 (fun s => [CText 2 s]) (a8303_items x)
  | E8304 x => [num 1 (a8304_type x); CText 2 (a8304_text x)]
  | E8400 x => [num 1 (a8400_flag x); Text (a8400_number x)]
  | E8401 x => num 1 (a8401_type x) ::
               many 1 (fun c => [num 1 (ct_flag c); CText 1 (ct_number c); CText 1 (ct_name c)]) (a8401_contacts x)
  | E8500 x => [num 1 (a8500_flag x)]
  | E8600 x => num 1 (a8600_action x) :: many 1 circle_reading (a8600_items x)
  | E8602 x => num 1 (a8602_action x) :: many 1 rect_reading (a8602_items x)
  | E8604 x => [num 4 (a8604_id x); num 2 (a8604_attr x)] ++ limits_reading (a8604_attr x) (a8604_lim x) ++
               many 2 (fun v => [Deg (Z.testbit (a8604_attr x) 6) (vx_lat v); Deg (Z.testbit (a8604_attr x) 7) (vx_lng v)]) (a8604_vs x)
  | E8606 x => [num 4 (a8606_id x); num 2 (a8606_attr x); When (a8606_start x); When (a8606_end x)] ++
               many 2 point_reading (a8606_points x)
  | E8800 x => [num 4 (a8800_media x); OIds (a8800_ids x)]
  | E8801 x => [num 1 (a8801_chan x); num 2 (a8801_cmd x); num 2 (a8801_dur x); num 1 (a8801_save x); num 1 (a8801_res x);
                num 1 (a8801_qual x); num 1 (a8801_light x); num 1 (a8801_contr x); num 1 (a8801_sat x); num 1 (a8801_chroma x)]
  | E8802 x => search_reading x
  | E8803 x => search_reading (a8803_q x) ++ [num 1 (a8803_remove x)]
  | E8804 x => [num 1 (a8804_cmd x); num 2 (a8804_dur x); num 1 (a8804_save x); num 1 (a8804_rate x)]
  | E8805 x => [num 4 (a8805_media x); num 1 (a8805_remove x)]
  end.

End Read.

(** Bodies must have at least so many bytes; elsewhere the fields themselves say so. *)
Definition least (e : entity) : Z :=
  match e with
  | E0102 _ => 1
  | E0104 _ | E8103 _ => 4
  | E8600 _ => 20 | E8602 _ => 24 | E8604 _ => 16
  | _ => 0
  end.
(** The number of bytes reported as used for a body of [d] of which [rest] remains. *)
Definition tally (e : entity) (d rest : bytes) : Z :=
  match e with
  | E0200 _ => 28
  | E0201 _ | E0500 _ => 30
  | E0303 _ => 1
  | E8105 _ | E8300 _ | E8106 _ | E8601 _ | E8603 _ | E8605 _ => zlen d - zlen rest - 1
  | _ => zlen d - zlen rest
  end.
