(** Message bodies sent by the platform (0x8001 .. 0x8A00); conventions as in EntTerm.v.
    0x8002-like empty bodies (0x0002, 0x0003, 0x8104, 0x8107, 0x8201, 0x8702) have
    no record: Encode returns nil, Decode returns 0, nil (t808_0x0002.go:11-17 and alike). *)
From Verif Require Import Base Bits Bcd GoTime Decimal Env EntTerm.

(** the Encode of the bodyless messages, e.g. t808_0x0002.go, t808_0x0003.go, t808_0x8104.go *)
Definition enc_empty : bytes := [].
(** the Decode of the bodyless messages, same files *)
Definition dec_empty (data : bytes) : res (unit * Z) := Ok (tt, 0).

(** ** 0x8001 platform general response, t808_0x8001.go:17-59 (same layout as 0x0001) *)
Record t8001 := T8001 { a8001_serial : Z; a8001_msgid : Z; a8001_result : Z }.
(** t808_0x8001.go:17-29 *)
Definition enc_8001 (e : t8001) : bytes :=
  concat [w_u16 (a8001_serial e); w_u16 (a8001_msgid e); w_byte (a8001_result e)].
(** t808_0x8001.go:31-59 *)
Definition dec_8001 (data : bytes) : res (t8001 * Z) :=
  if zlen data <? 5 then Err PErrInvalidBody
  else run_count
    (rd serial <- r_u16 ; rd id <- r_u16 ; rd result <- r_byte ;
     rret (T8001 serial id result)) data.

(** ** 0x8003 retransmission request, t808_0x8003.go *)
Record t8003 := T8003 { a8003_serial : Z; a8003_ids : list Z }.
(** t808_0x8003.go:15-29 *)
Definition enc_8003 (e : t8003) : bytes :=
  concat [w_u16 (a8003_serial e); w_byte (u8 (zlen (a8003_ids e))); concat (map w_u16 (a8003_ids e))].
(** t808_0x8003.go:31-59 *)
Definition dec_8003 (data : bytes) : res (t8003 * Z) :=
  if zlen data <? 3 then Err PErrInvalidBody
  else run_count
    (rd s <- r_u16 ; rd n <- r_byte ; rd ids <- r_list (Z.to_nat n) r_u16 ;
     rret (T8003 s ids)) data.

(** ** 0x8100 registration response, t808_0x8100.go *)
Record t8100 := T8100 { a8100_serial : Z; a8100_result : Z; a8100_key : bytes }.
(** t808_0x8100.go:33-49 *)
Definition enc_8100 (env : Env) (e : t8100) : res bytes :=
  do k <- w_str_opt env (a8100_key e) ;
  Ok (concat [w_u16 (a8100_serial e); w_byte (a8100_result e); k]).
(** t808_0x8100.go:51-80 *)
Definition dec_8100 (env : Env) (data : bytes) : res (t8100 * Z) :=
  if zlen data <? 3 then Err PErrInvalidBody
  else run_count
    (rd s <- r_u16 ; rd r <- r_byte ; rd k <- r_str_opt env ; rret (T8100 s r k)) data.

(** ** 0x8103 set parameters, t808_0x8103.go *)
Record t8103 := T8103 { a8103_params : list (option param) }.
(** t808_0x8103.go:13-31 *)
Definition enc_8103 (e : t8103) : res bytes :=
  do ps <- mapM enc_param (a8103_params e) ;
  Ok (concat [w_byte (u8 (zlen (a8103_params e))); concat ps]).
(** t808_0x8103.go:33-73 *)
Definition dec_8103 (data : bytes) : res (t8103 * Z) :=
  if zlen data <=? 3 then Err PErrInvalidBody
  else run_count
    (rd n <- r_byte ; rd ps <- r_list (Z.to_nat n) r_param ; rret (T8103 ps)) data.

(** ** 0x8105 terminal control, t808_0x8105.go; 0x8300 text message, t808_0x8300.go
    (one byte and text; the reported count lacks the first byte) *)
Record ttext := TText { tt_flag : Z; tt_text : bytes }.
(** t808_0x8105.go:35-44, t808_0x8300.go:15-24 *)
Definition enc_text (env : Env) (e : ttext) : res bytes :=
  do d <- w_str_opt env (tt_text e) ; Ok (concat [w_byte (tt_flag e); d]).
(** t808_0x8105.go:46-62, t808_0x8300.go:26-41 *)
Definition dec_text (env : Env) (data : bytes) : res (ttext * Z) :=
  match data with
  | [] => Err PErrInvalidBody
  | f :: body =>
      match r_str_opt env body with
      | Ok (s, rest) => Ok (TText f s, zlen data - zlen rest - 1)
      | Err e => Err e
      | Panic => Panic
      end
  end.

(** ** Lists of ids: 0x8106, 0x8601, 0x8603, 0x8605 (t808_0x8106.go:13-38 and alike:
    the count is read from data[0] and the reported length lacks it), and
    0x8607 (t808_0x8607.go:13-47, reads the count through the reader) *)
Record tids := TIds { ti_ids : list Z }.
(** t808_0x8601.go:13-24 (same text in 8603, 8605, 8607) *)
Definition enc_ids (e : tids) : bytes :=
  concat [w_byte (u8 (zlen (ti_ids e))); concat (map w_u32 (ti_ids e))].
(** t808_0x8601.go:26-42 (same text in 8603, 8605) *)
Definition dec_ids (data : bytes) : res (tids * Z) :=
  match data with
  | [] => Err PErrInvalidBody
  | n :: body =>
      match r_list (Z.to_nat n) r_u32 body with
      | Ok (ids, rest) => Ok (TIds ids, zlen data - zlen rest - 1)
      | Err e => Err e
      | Panic => Panic
      end
  end.
(** t808_0x8607.go:26-47 *)
Definition dec_8607 (data : bytes) : res (tids * Z) :=
  if zlen data <? 1 then Err PErrInvalidBody
  else run_count
    (rd n <- r_byte ; rd ids <- r_list (Z.to_nat n) r_u32 ; rret (TIds ids)) data.

(** ** 0x8108 upgrade package, t808_0x8108.go *)
Record t8108 := T8108 { a8108_type : Z; a8108_manu : bytes; a8108_ver : bytes; a8108_size : Z; a8108_data : bytes }.
(** t808_0x8108.go:29-58 *)
Definition enc_8108 (env : Env) (e : t8108) : res bytes :=
  do v <- w_str env (a8108_ver e) ;
  Ok (concat [w_byte (a8108_type e); w_fixed (a8108_manu e) 5; w_byte (u8 (zlen v)); v;
              w_u32 (a8108_size e); a8108_data e]).
(** t808_0x8108.go:60-104 *)
Definition dec_8108 (env : Env) (data : bytes) : res (t8108 * Z) :=
  if zlen data <? 11 then Err PErrInvalidBody
  else run_count
    (rd t <- r_byte ; rd m <- r_bytes 5 ; rd n <- r_byte ; rd v <- r_str_n env n ;
     rd s <- r_u32 ; rd d <- r_all ; rret (T8108 t (cstr m) v s d)) data.

(** ** 0x8202, 0x8203, t808_0x8202.go:19-49, t808_0x8203.go:15-45 (uint16 then uint32) *)
Record t8202 := T8202 { a8202_a : Z; a8202_b : Z }.
(** t808_0x8202.go:19-28, t808_0x8203.go:15-24 *)
Definition enc_8202 (e : t8202) : bytes := concat [w_u16 (a8202_a e); w_u32 (a8202_b e)].
(** t808_0x8202.go:30-49, t808_0x8203.go:26-45 *)
Definition dec_8202 (data : bytes) : res (t8202 * Z) :=
  if zlen data <? 4 then Err PErrInvalidBody
  else run_count (rd a <- r_u16 ; rd b <- r_u32 ; rret (T8202 a b)) data.

(** ** 0x8301 event settings, t808_0x8301.go; 0x8302 question, t808_0x8302.go *)
Record labelled := Labelled { lb_id : Z; lb_text : bytes }.
(** t808_0x8301.go:42-54, t808_0x8302.go:53-65 *)
Definition enc_labelled (env : Env) (x : labelled) : res bytes :=
  do c <- w_str env (lb_text x) ;
  Ok (w_byte (lb_id x) ++ w_byte (u8 (zlen c)) ++ c).
(** t808_0x8301.go:83-98, t808_0x8302.go:104-119 *)
Definition r_labelled (env : Env) : R labelled :=
  rd id <- r_byte ; rd n <- r_byte ; rd c <- r_str_n env n ; rret (Labelled id c).
(** t808_0x8301.go:11-16 *)
Record t8301 := T8301 { a8301_type : Z; a8301_events : list labelled }.
(** t808_0x8301.go:30-57 *)
Definition enc_8301 (env : Env) (e : t8301) : res bytes :=
  do evs <- mapM (enc_labelled env) (a8301_events e) ;
  Ok (concat [w_byte (a8301_type e); w_byte (u8 (zlen (a8301_events e))); concat evs]).
(** t808_0x8301.go:59-102 *)
Definition dec_8301 (env : Env) (data : bytes) : res (t8301 * Z) :=
  if zlen data <? 2 then Err PErrInvalidBody
  else run_count
    (rd t <- r_byte ; rd n <- r_byte ; rd evs <- r_list (Z.to_nat n) (r_labelled env) ;
     rret (T8301 t evs)) data.
(** t808_0x8302.go:11-18 *)
Record t8302 := T8302 { a8302_flag : Z; a8302_q : bytes; a8302_answers : list labelled }.
(** t808_0x8302.go:32-68 *)
Definition enc_8302 (env : Env) (e : t8302) : res bytes :=
  do q <- w_str env (a8302_q e) ;
  do ans <- mapM (enc_labelled env) (a8302_answers e) ;
  Ok (concat [w_byte (a8302_flag e); w_byte (u8 (zlen q)); q; concat ans]).
(** t808_0x8302.go:96-121: until the reader is empty *)
Fixpoint r_until_empty {A} (fuel : nat) (p : R A) : R (list A) :=
  fun l => match l with
           | [] => Ok ([], [])
           | _ => match fuel with
                  | O => Err ErrFuel
                  | S f => (rd x <- p ; rd xs <- r_until_empty f p ; rret (x :: xs)) l
                  end
           end.
(** t808_0x8302.go:70-124 *)
Definition dec_8302 (env : Env) (data : bytes) : res (t8302 * Z) :=
  if zlen data <? 2 then Err PErrInvalidBody
  else run_count
    (rd f <- r_byte ; rd n <- r_byte ; rd q <- r_str_n env n ;
     rd ans <- r_until_empty (length data) (r_labelled env) ;
     rret (T8302 f q ans)) data.

(** ** 0x8303 information menu, t808_0x8303.go *)
Record t8303 := T8303 { a8303_type : Z; a8303_items : list bytes }.
(** one turn of the loop of t808_0x8303.go:52-65 *)
Definition enc_8303_item (env : Env) (s : bytes) : res bytes :=
  do d <- w_str env s ; Ok (w_u16 (u16 (zlen d)) ++ d).
(** t808_0x8303.go:42-67 *)
Definition enc_8303 (env : Env) (e : t8303) : res bytes :=
  do items <- mapM (enc_8303_item env) (a8303_items e) ;
  Ok (concat [w_byte (a8303_type e); w_byte (u8 (zlen (a8303_items e))); concat items]).
(** one turn of the loop of t808_0x8303.go:89-103 *)
Definition r_8303_item (env : Env) : R bytes := rd n <- r_u16 ; r_str_n env n.
(** t808_0x8303.go:69-104 *)
Definition dec_8303 (env : Env) (data : bytes) : res (t8303 * Z) :=
  if zlen data <? 2 then Err PErrInvalidBody
  else run_count
    (rd t <- r_byte ; rd n <- r_byte ; rd items <- r_list (Z.to_nat n) (r_8303_item env) ;
     rret (T8303 t items)) data.

(** ** 0x8304 information service, t808_0x8304.go *)
Record t8304 := T8304 { a8304_type : Z; a8304_text : bytes }.
(** t808_0x8304.go:22-40 *)
Definition enc_8304 (env : Env) (e : t8304) : res bytes :=
  do d <- w_str env (a8304_text e) ;
  Ok (concat [w_byte (a8304_type e); w_u16 (u16 (zlen d)); d]).
(** t808_0x8304.go:42-67 *)
Definition dec_8304 (env : Env) (data : bytes) : res (t8304 * Z) :=
  if zlen data <? 3 then Err PErrInvalidBody
  else run_count
    (rd t <- r_byte ; rd n <- r_u16 ; rd c <- r_str_n env n ; rret (T8304 t c)) data.

(** ** 0x8400 call back, t808_0x8400.go *)
Record t8400 := T8400 { a8400_flag : Z; a8400_number : bytes }.
(** t808_0x8400.go:25-34: the error of WritString is ignored, nothing is written then *)
Definition enc_8400 (env : Env) (e : t8400) : bytes :=
  concat [w_byte (a8400_flag e); match w_str env (a8400_number e) with Ok d => d | _ => [] end].
(** t808_0x8400.go:36-55 *)
Definition dec_8400 (env : Env) (data : bytes) : res (t8400 * Z) :=
  if zlen data <? 1 then Err PErrInvalidBody
  else run_count (rd f <- r_byte ; rd s <- r_str env ; rret (T8400 f s)) data.

(** ** 0x8401 phone book, t808_0x8401.go *)
Record contact := Contact { ct_flag : Z; ct_number : bytes; ct_name : bytes }.
(** t808_0x8401.go:11-16 *)
Record t8401 := T8401 { a8401_type : Z; a8401_contacts : list contact }.
(** t808_0x8401.go:68-95 *)
Definition enc_contact (env : Env) (c : contact) : res bytes :=
  do n <- w_str env (ct_number c) ;
  do m <- w_str env (ct_name c) ;
  Ok (w_byte (ct_flag c) ++ w_byte (u8 (zlen n)) ++ n ++ w_byte (u8 (zlen m)) ++ m).
(** t808_0x8401.go:58-97 *)
Definition enc_8401 (env : Env) (e : t8401) : res bytes :=
  do cs <- mapM (enc_contact env) (a8401_contacts e) ;
  Ok (concat [w_byte (a8401_type e); w_byte (u8 (zlen (a8401_contacts e))); concat cs]).
(** t808_0x8401.go:119-153 *)
Definition r_contact (env : Env) : R contact :=
  rd f <- r_byte ; rd n <- r_byte ; rd num <- r_str_n env n ;
  rd m <- r_byte ; rd nam <- r_str_n env m ; rret (Contact f num nam).
(** t808_0x8401.go:99-155 *)
Definition dec_8401 (env : Env) (data : bytes) : res (t8401 * Z) :=
  if zlen data <? 1 then Err PErrInvalidBody
  else run_count
    (rd t <- r_byte ; rd n <- r_byte ; rd cs <- r_list (Z.to_nat n) (r_contact env) ;
     rret (T8401 t cs)) data.

(** ** 0x8500, t808_0x8500.go:21-31 *)
Record t8500 := T8500 { a8500_flag : Z }.
(** t808_0x8500.go:21-23 *)
Definition enc_8500 (e : t8500) : bytes := [a8500_flag e].
(** t808_0x8500.go:25-32 *)
Definition dec_8500 (data : bytes) : res (t8500 * Z) :=
  match data with a :: _ => Ok (T8500 a, 1) | _ => Err PErrInvalidBody end.
(** T808_0x8500_Flag.SetLock, t808_0x8500.go:13-15 *)
Definition set_lock (f : Z) (b : bool) : Z := setb 8 f 0 b.

(** ** Area attributes, t808_0x8600.go:10-46 (bits 6 and 7 are the hemispheres) *)
Definition at_south (a : Z) : bool := getb 16 a 6.
(** AreaAttribute.GetLongitudeType, t808_0x8600.go:31-36 *)
Definition at_west (a : Z) : bool := getb 16 a 7.
(** [if x < 0 { attribute.SetBit(off, true) }], t808_0x8600.go:108-116 *)
Definition mark16 (a off : Z) (neg : bool) : Z := if neg then setb 16 a off true else a.
(** [Attribute&1 == 0] *)
Definition at_timed (a : Z) : bool := negb (Z.land a 1 =? 0).

(** The optional time/speed block common to 0x8600, 0x8602, 0x8604 *)
Record limits := Limits { lm_start : gotime; lm_end : gotime; lm_speed : Z; lm_dur : Z }.
(** the zero values left when the attribute says nothing follows, t808_0x8600.go:206-233 *)
Definition limits_zero : limits := Limits time_zero time_zero 0 0.
(** t808_0x8600.go:136-145, t808_0x8602.go:101-110, t808_0x8604.go:70-79 *)
Definition enc_limits (env : Env) (l : limits) : bytes :=
  concat [w_time env (lm_start l); w_time env (lm_end l); w_u16 (lm_speed l); w_byte (lm_dur l)].
(** t808_0x8600.go:215-236, t808_0x8602.go:190-211, t808_0x8604.go:119-140 *)
Definition r_limits (env : Env) : R limits :=
  rd s <- r_time env ; rd e <- r_time env ; rd v <- r_u16 ; rd d <- r_byte ;
  rret (Limits s e v d).
(** [if attribute.GetBit(..)] around the time and speed fields, t808_0x8600.go:206-233 *)
Definition r_limits_if (env : Env) (b : bool) : R limits :=
  if b then r_limits env else rret limits_zero.

(** ** 0x8600 circles, t808_0x8600.go *)
Record circle := Circle {
  ci_id : Z; ci_attr : Z; ci_lat : decimal; ci_lng : decimal; ci_radius : Z; ci_lim : limits }.
(** t808_0x8600.go:80-85 *)
Record t8600 := T8600 { a8600_action : Z; a8600_items : list circle }.
(** t808_0x8600.go:108-116 *)
Definition circle_attr (c : circle) : Z :=
  mark16 (mark16 (ci_attr c) 6 (micro (ci_lat c) <? 0)) 7 (micro (ci_lng c) <? 0).
(** t808_0x8600.go:101-146 *)
Definition enc_circle (env : Env) (c : circle) : bytes :=
  concat [w_u32 (ci_id c); w_u16 (circle_attr c);
          w_u32 (abs_u32 env (micro (ci_lat c))); w_u32 (abs_u32 env (micro (ci_lng c)));
          w_u32 (ci_radius c);
          if at_timed (circle_attr c) then enc_limits env (ci_lim c) else []].
(** t808_0x8600.go:91-148; the items are modified in place *)
Definition enc_8600 (env : Env) (e : t8600) : bytes :=
  concat [w_byte (a8600_action e); w_byte (u8 (zlen (a8600_items e)));
          concat (map (enc_circle env) (a8600_items e))].
(** what Encode leaves in one item (it works through a pointer), t808_0x8600.go:101-116 *)
Definition upd_circle (c : circle) : circle :=
  Circle (ci_id c) (circle_attr c) (ci_lat c) (ci_lng c) (ci_radius c) (ci_lim c).
(** what Encode leaves in the value, t808_0x8600.go:101-116 *)
Definition upd_8600 (e : t8600) : t8600 := T8600 (a8600_action e) (map upd_circle (a8600_items e)).
(** t808_0x8600.go:171-238 *)
Definition r_circle (env : Env) : R circle :=
  rd id <- r_u32 ; rd attr <- r_u16 ; rd lat <- r_u32 ; rd lng <- r_u32 ;
  rd (la, lo) <- rlift (get_geo_point lat (at_south attr) lng (at_west attr)) ;
  rd radius <- r_u32 ; rd lim <- r_limits_if env (at_timed attr) ;
  rret (Circle id attr la lo radius lim).
(** t808_0x8600.go:150-240 *)
Definition dec_8600 (env : Env) (data : bytes) : res (t8600 * Z) :=
  if zlen data <? 20 then Err PErrInvalidBody
  else run_count
    (rd a <- r_byte ; rd n <- r_byte ; rd items <- r_list (Z.to_nat n) (r_circle env) ;
     rret (T8600 a items)) data.

(** ** 0x8602 rectangles, t808_0x8602.go *)
Record rect := Rect {
  re_id : Z; re_attr : Z; re_llat : decimal; re_llng : decimal;
  re_rlat : decimal; re_rlng : decimal; re_lim : limits }.
(** t808_0x8602.go:34-39 *)
Record t8602 := T8602 { a8602_action : Z; a8602_items : list rect }.
(** t808_0x8602.go:62-78 *)
Definition rect_attr (c : rect) : Z :=
  mark16 (mark16 (mark16 (mark16 (re_attr c)
    6 (micro (re_llat c) <? 0)) 7 (micro (re_llng c) <? 0))
    6 (micro (re_rlat c) <? 0)) 7 (micro (re_rlng c) <? 0).
(** t808_0x8602.go:55-111 *)
Definition enc_rect (env : Env) (c : rect) : bytes :=
  concat [w_u32 (re_id c); w_u16 (rect_attr c);
          w_u32 (abs_u32 env (micro (re_llat c))); w_u32 (abs_u32 env (micro (re_llng c)));
          w_u32 (abs_u32 env (micro (re_rlat c))); w_u32 (abs_u32 env (micro (re_rlng c)));
          if at_timed (rect_attr c) then enc_limits env (re_lim c) else []].
(** t808_0x8602.go:45-113; the items are modified in place *)
Definition enc_8602 (env : Env) (e : t8602) : bytes :=
  concat [w_byte (a8602_action e); w_byte (u8 (zlen (a8602_items e)));
          concat (map (enc_rect env) (a8602_items e))].
(** what Encode leaves in one item, t808_0x8602.go:55-78 *)
Definition upd_rect (c : rect) : rect :=
  Rect (re_id c) (rect_attr c) (re_llat c) (re_llng c) (re_rlat c) (re_rlng c) (re_lim c).
(** what Encode leaves in the value, t808_0x8602.go:55-78 *)
Definition upd_8602 (e : t8602) : t8602 := T8602 (a8602_action e) (map upd_rect (a8602_items e)).
(** t808_0x8602.go:136-213 *)
Definition r_rect (env : Env) : R rect :=
  rd id <- r_u32 ; rd attr <- r_u16 ;
  rd a <- r_u32 ; rd b <- r_u32 ; rd c <- r_u32 ; rd d <- r_u32 ;
  rd (la, lo) <- rlift (get_geo_point a (at_south attr) b (at_west attr)) ;
  rd (ra, ro) <- rlift (get_geo_point c (at_south attr) d (at_west attr)) ;
  rd lim <- r_limits_if env (at_timed attr) ;
  rret (Rect id attr la lo ra ro lim).
(** t808_0x8602.go:115-215 *)
Definition dec_8602 (env : Env) (data : bytes) : res (t8602 * Z) :=
  if zlen data <? 24 then Err PErrInvalidBody
  else run_count
    (rd a <- r_byte ; rd n <- r_byte ; rd items <- r_list (Z.to_nat n) (r_rect env) ;
     rret (T8602 a items)) data.

(** ** 0x8604 polygon, t808_0x8604.go *)
Record vertex := Vertex { vx_lat : decimal; vx_lng : decimal }.
(** t808_0x8604.go:18-33 *)
Record t8604 := T8604 { a8604_id : Z; a8604_attr : Z; a8604_lim : limits; a8604_vs : list vertex }.
(** t808_0x8604.go:46-62: the sign is tested before truncation (Cmp with zero) *)
Definition poly_attr1 (a : Z) (v : vertex) : Z :=
  mark16 (mark16 a 6 (dlt (dmul (vx_lat v) dec_million) dec_zero))
         7 (dlt (dmul (vx_lng v) dec_million) dec_zero).
(** the attribute after the loop of t808_0x8604.go:46-62 *)
Definition poly_attr (e : t8604) : Z := fold_left poly_attr1 (a8604_vs e) (a8604_attr e).
(** one turn of the loop of t808_0x8604.go:86-92 *)
Definition enc_vertex (env : Env) (v : vertex) : bytes :=
  w_u32 (abs_u32 env (micro (vx_lat v))) ++ w_u32 (abs_u32 env (micro (vx_lng v))).
(** t808_0x8604.go:39-94 *)
Definition enc_8604 (env : Env) (e : t8604) : bytes :=
  concat [w_u32 (a8604_id e); w_u16 (poly_attr e);
          if at_timed (poly_attr e) then enc_limits env (a8604_lim e) else [];
          w_u16 (u16 (zlen (a8604_vs e))); concat (map (enc_vertex env) (a8604_vs e))].
(** what Encode leaves in the value, t808_0x8604.go:46-62 *)
Definition upd_8604 (e : t8604) : t8604 :=
  T8604 (a8604_id e) (poly_attr e) (a8604_lim e) (a8604_vs e).
(** t808_0x8604.go:151-170 *)
Definition r_vertex (attr : Z) : R vertex :=
  rd lat <- r_u32 ; rd lng <- r_u32 ;
  rd (la, lo) <- rlift (get_geo_point lat (at_south attr) lng (at_west attr)) ;
  rret (Vertex la lo).
(** t808_0x8604.go:96-172 *)
Definition dec_8604 (env : Env) (data : bytes) : res (t8604 * Z) :=
  if zlen data <? 16 then Err PErrInvalidBody
  else run_count
    (rd id <- r_u32 ; rd attr <- r_u16 ; rd lim <- r_limits_if env (at_timed attr) ;
     rd n <- r_u16 ; rd vs <- r_list (Z.to_nat n) (r_vertex attr) ;
     rret (T8604 id attr lim vs)) data.

(** ** 0x8606 route, t808_0x8606.go *)
Record point := Point {
  pt_id : Z; pt_sec : Z; pt_lat : decimal; pt_lng : decimal; pt_width : Z; pt_attr : Z;
  pt_long : option Z; pt_short : option Z; pt_speed : option Z; pt_over : option Z }.
(** t808_0x8606.go:10-21 *)
Record t8606 := T8606 { a8606_id : Z; a8606_attr : Z; a8606_start : gotime; a8606_end : gotime; a8606_points : list point }.
(** [p != nil && q != nil] *)
Definition both (a b : option Z) : option (Z * Z) :=
  match a, b with Some x, Some y => Some (x, y) | _, _ => None end.
(** [p != nil] *)
Definition is_some {A} (o : option A) : bool := match o with Some _ => true | None => false end.
(** t808_0x8606.go:127-145 *)
Definition point_attr (p : point) : Z :=
  let a1 := if micro (pt_lat p) <? 0 then setb 8 (pt_attr p) 2 true else pt_attr p in
  let a2 := if micro (pt_lng p) <? 0 then setb 8 a1 3 true else a1 in
  let a3 := setb 8 a2 0 (is_some (both (pt_long p) (pt_short p))) in
  setb 8 a3 1 (is_some (both (pt_speed p) (pt_over p))).
(** t808_0x8606.go:119-164 (on copies of the points) *)
Definition enc_point (env : Env) (p : point) : bytes :=
  concat [w_u32 (pt_id p); w_u32 (pt_sec p);
          w_u32 (abs_u32 env (micro (pt_lat p))); w_u32 (abs_u32 env (micro (pt_lng p)));
          w_byte (pt_width p); w_byte (point_attr p);
          match both (pt_long p) (pt_short p) with Some (a, b) => w_u16 a ++ w_u16 b | None => [] end;
          match both (pt_speed p) (pt_over p) with Some (a, b) => w_u16 a ++ w_byte b | None => [] end].
(** t808_0x8606.go:100-166 *)
Definition enc_8606 (env : Env) (e : t8606) : bytes :=
  concat [w_u32 (a8606_id e); w_u16 (a8606_attr e); w_time env (a8606_start e);
          w_time env (a8606_end e); w_u16 (u16 (zlen (a8606_points e)));
          concat (map (enc_point env) (a8606_points e))].
(** t808_0x8606.go:250-263 *)
Definition r_two16 (b : bool) : R (option Z * option Z) :=
  if b then rd x <- r_u16 ; rd y <- r_u16 ; rret (Some x, Some y) else rret (None, None).
(** t808_0x8606.go:266-279 *)
Definition r_speed (b : bool) : R (option Z * option Z) :=
  if b then rd x <- r_u16 ; rd y <- r_byte ; rret (Some x, Some y) else rret (None, None).
(** t808_0x8606.go:206-281 *)
Definition r_point : R point :=
  rd id <- r_u32 ; rd sec <- r_u32 ; rd lat <- r_u32 ; rd lng <- r_u32 ;
  rd w <- r_byte ; rd attr <- r_byte ;
  rd (la, lo) <- rlift (get_geo_point lat (getb 8 attr 2) lng (getb 8 attr 3)) ;
  rd (l, s) <- r_two16 (getb 8 attr 0) ;
  rd (v, o) <- r_speed (getb 8 attr 1) ;
  rret (Point id sec la lo w attr l s v o).
(** t808_0x8606.go:168-283 *)
Definition dec_8606 (env : Env) (data : bytes) : res (t8606 * Z) :=
  if zlen data <? 20 then Err PErrInvalidBody
  else run_count
    (rd id <- r_u32 ; rd attr <- r_u16 ; rd s <- r_time env ; rd e <- r_time env ;
     rd n <- r_u16 ; rd ps <- r_list (Z.to_nat n) r_point ;
     rret (T8606 id attr s e ps)) data.

(** ** 0x8800 multimedia upload response, t808_0x8800.go *)
Record t8800 := T8800 { a8800_media : Z; a8800_ids : list Z }.
(** t808_0x8800.go:15-33 *)
Definition enc_8800 (e : t8800) : bytes :=
  concat [w_u32 (a8800_media e);
          if zlen (a8800_ids e) =? 0 then []
          else w_byte (u8 (zlen (a8800_ids e))) ++ concat (map w_u16 (a8800_ids e))].
(** t808_0x8800.go:35-67 *)
Definition dec_8800 (data : bytes) : res (t8800 * Z) :=
  if zlen data <? 4 then Err PErrInvalidBody
  else run_count
    (rd m <- r_u32 ; rd k <- r_len ;
     if k =? 0 then rret (T8800 m [])
     else rd n <- r_byte ; rd ids <- r_list (Z.to_nat n) r_u16 ; rret (T8800 m ids)) data.

(** ** 0x8801 camera command, t808_0x8801.go *)
Record t8801 := T8801 {
  a8801_chan : Z; a8801_cmd : Z; a8801_dur : Z; a8801_save : Z; a8801_res : Z;
  a8801_qual : Z; a8801_light : Z; a8801_contr : Z; a8801_sat : Z; a8801_chroma : Z }.
(** t808_0x8801.go:57-90 *)
Definition enc_8801 (e : t8801) : bytes :=
  concat [w_byte (a8801_chan e); w_u16 (a8801_cmd e); w_u16 (a8801_dur e); w_byte (a8801_save e);
          w_byte (a8801_res e); w_byte (a8801_qual e); w_byte (a8801_light e);
          w_byte (a8801_contr e); w_byte (a8801_sat e); w_byte (a8801_chroma e)].
(** t808_0x8801.go:92-161 *)
Definition dec_8801 (data : bytes) : res (t8801 * Z) :=
  if zlen data <? 12 then Err PErrInvalidBody
  else run_count
    (rd a <- r_byte ; rd b <- r_u16 ; rd c <- r_u16 ; rd d <- r_byte ; rd e <- r_byte ;
     rd f <- r_byte ; rd g <- r_byte ; rd h <- r_byte ; rd i <- r_byte ; rd j <- r_byte ;
     rret (T8801 a b c d e f g h i j)) data.

(** ** 0x8802 media search, t808_0x8802.go *)
Record t8802 := T8802 { a8802_type : Z; a8802_chan : Z; a8802_event : Z; a8802_start : gotime; a8802_end : gotime }.
(** t808_0x8802.go:24-42 *)
Definition enc_8802 (env : Env) (e : t8802) : bytes :=
  concat [w_byte (a8802_type e); w_byte (a8802_chan e); w_byte (a8802_event e);
          w_time env (a8802_start e); w_time env (a8802_end e)].
(** the reads of t808_0x8802.go:44-81 *)
Definition r_8802 (env : Env) : R t8802 :=
  rd t <- r_byte ; rd c <- r_byte ; rd ev <- r_byte ; rd s <- r_time env ; rd e <- r_time env ;
  rret (T8802 t c ev s e).
(** t808_0x8802.go:44-81 *)
Definition dec_8802 (env : Env) (data : bytes) : res (t8802 * Z) :=
  if zlen data <? 15 then Err PErrInvalidBody else run_count (r_8802 env) data.

(** ** 0x8803 media upload command, t808_0x8803.go *)
Record t8803 := T8803 { a8803_q : t8802; a8803_remove : Z }.
(** t808_0x8803.go:27-48 *)
Definition enc_8803 (env : Env) (e : t8803) : bytes :=
  concat [enc_8802 env (a8803_q e); w_byte (a8803_remove e)].
(** t808_0x8803.go:50-93 *)
Definition dec_8803 (env : Env) (data : bytes) : res (t8803 * Z) :=
  if zlen data <? 16 then Err PErrInvalidBody
  else run_count (rd q <- r_8802 env ; rd f <- r_byte ; rret (T8803 q f)) data.

(** ** 0x8804 audio command, t808_0x8804.go *)
Record t8804 := T8804 { a8804_cmd : Z; a8804_dur : Z; a8804_save : Z; a8804_rate : Z }.
(** t808_0x8804.go:31-46 *)
Definition enc_8804 (e : t8804) : bytes :=
  concat [w_byte (a8804_cmd e); w_u16 (a8804_dur e); w_byte (a8804_save e); w_byte (a8804_rate e)].
(** t808_0x8804.go:48-81 *)
Definition dec_8804 (data : bytes) : res (t8804 * Z) :=
  if zlen data <? 5 then Err PErrInvalidBody
  else run_count
    (rd a <- r_byte ; rd b <- r_u16 ; rd c <- r_byte ; rd d <- r_byte ; rret (T8804 a b c d)) data.

(** ** 0x8805 single media upload, t808_0x8805.go *)
Record t8805 := T8805 { a8805_media : Z; a8805_remove : Z }.
(** t808_0x8805.go:15-24 *)
Definition enc_8805 (e : t8805) : bytes := concat [w_u32 (a8805_media e); w_byte (a8805_remove e)].
(** t808_0x8805.go:26-45: the length check is [< 3]; shorter reads fail in the reader *)
Definition dec_8805 (data : bytes) : res (t8805 * Z) :=
  if zlen data <? 3 then Err PErrInvalidBody
  else run_count (rd a <- r_u32 ; rd b <- r_byte ; rret (T8805 a b)) data.
