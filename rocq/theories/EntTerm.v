(** Message bodies sent by terminals (0x0001 .. 0x0A00), the extra items of a
    position report and terminal parameters.  [enc_X] is the Encode method, [dec_X]
    is the Decode method on a fresh entity; both follow the statement order of the
    Go code.  Encoders that modify their receiver have an [upd_X] giving the
    receiver afterwards. *)
From Verif Require Import Base Bits Bcd GoTime Decimal Env.

(** ** Extra items, protocol/extra *)

(** Values of the twelve built-in items: protocol/extra/0x01.go .. 0x31.go *)
Inductive extra_val :=
| X01 (v : Z) | X02 (v : Z) | X03 (v : Z) | X04 (v : Z)
| X11 (typ : Z) (area : option Z)
| X12 (typ area dir : Z)
| X13 (road dur result : Z)
| X25 (v : Z) | X2A (v : Z) | X2B (v : Z) | X30 (v : Z) | X31 (v : Z).

(** An item as held by an entity: value and [serialized] bytes. *)
Record extra := Extra { x_val : extra_val; x_ser : bytes }.

(** ID(), protocol/extra/register.go:6-31 and the ID methods *)
Definition extra_id (v : extra_val) : Z :=
  match v with
  | X01 _ => 1 | X02 _ => 2 | X03 _ => 3 | X04 _ => 4
  | X11 _ _ => 17 | X12 _ _ _ => 18 | X13 _ _ _ => 19
  | X25 _ => 37 | X2A _ => 42 | X2B _ => 43 | X30 _ => 48 | X31 _ => 49
  end.

(** NewExtra_0x..: the [serialized] field computed by the constructors
    (protocol/extra/0x01.go:14-23, 0x02:14-23, 0x03:14-23, 0x04:14-23, 0x11:19-33,
    0x12:21-37, 0x13:21-38, 0x25:14-23, 0x2a:14-23, 0x2b:14-23, 0x30:13-19, 0x31:13-19) *)
Definition new_extra (v : extra_val) : extra :=
  Extra v
    match v with
    | X01 n | X25 n | X2B n => w_u32 n
    | X02 n | X03 n | X04 n | X2A n => w_u16 n
    | X30 n | X31 n => w_byte n
    | X11 typ area =>
        w_byte typ ++ (if negb (typ =? 0) then match area with Some a => w_u32 a | None => [] end else [])
    | X12 typ area dir => w_byte typ ++ w_u32 area ++ w_byte dir
    | X13 road dur result => w_u32 road ++ w_u16 dur ++ w_byte result
    end.

(** The Decode methods of the items: value and count of consumed bytes. *)
Definition dec_x32 (mk : Z -> extra_val) (data : bytes) : res (extra_val * Z) :=
  match data with
  | a :: b :: c :: d :: _ => Ok (mk (be32 a b c d), 4)
  | _ => Err ErrInvalidExtraLength
  end.
(** the Decode of the 2-byte extras, e.g. protocol/extra/0x2a.go *)
Definition dec_x16 (mk : Z -> extra_val) (data : bytes) : res (extra_val * Z) :=
  match data with
  | a :: b :: _ => Ok (mk (be16 a b), 2)
  | _ => Err ErrInvalidExtraLength
  end.
(** the Decode of the 1-byte extras, e.g. protocol/extra/0x30.go *)
Definition dec_x8 (mk : Z -> extra_val) (data : bytes) : res (extra_val * Z) :=
  match data with
  | a :: _ => Ok (mk a, 1)
  | _ => Err ErrInvalidExtraLength
  end.
(** protocol/extra/0x11.go:47-63 *)
Definition dec_x11 (data : bytes) : res (extra_val * Z) :=
  match data with
  | [] => Err ErrInvalidExtraLength
  | t :: rest =>
      if t =? 0 then Ok (X11 0 None, 1)
      else match rest with
           | a :: b :: c :: d :: _ => Ok (X11 t (Some (be32 a b c d)), 5)
           | _ => Err ErrInvalidExtraLength
           end
  end.
(** protocol/extra/0x12.go:51-60 *)
Definition dec_x12 (data : bytes) : res (extra_val * Z) :=
  match data with
  | t :: a :: b :: c :: d :: dir :: _ => Ok (X12 t (be32 a b c d) dir, 6)
  | _ => Err ErrInvalidExtraLength
  end.
(** protocol/extra/0x13.go:52-61 *)
Definition dec_x13 (data : bytes) : res (extra_val * Z) :=
  match data with
  | a :: b :: c :: d :: e :: f :: r :: _ => Ok (X13 (be32 a b c d) (be16 e f) r, 7)
  | _ => Err ErrInvalidExtraLength
  end.

(** extra.Decode, protocol/extra/extra.go:18-34, with entityMapper
    (register.go:34-71, built-in entries only; extra.Register is in Custom.v). *)
Definition extra_decode (typ : Z) (data : bytes) : res (extra_val * Z) :=
  if typ =? 1 then dec_x32 X01 data
  else if typ =? 2 then dec_x16 X02 data
  else if typ =? 3 then dec_x16 X03 data
  else if typ =? 4 then dec_x16 X04 data
  else if typ =? 17 then dec_x11 data
  else if typ =? 18 then dec_x12 data
  else if typ =? 19 then dec_x13 data
  else if typ =? 37 then dec_x32 X25 data
  else if typ =? 42 then dec_x16 X2A data
  else if typ =? 43 then dec_x32 X2B data
  else if typ =? 48 then dec_x8 X30 data
  else if typ =? 49 then dec_x8 X31 data
  else Err ErrTypeNotRegistered.

(** t808_0x0200.go:143-153: nil items are skipped; [byte(len(data))] truncates. *)
Definition enc_extra (x : option extra) : bytes :=
  match x with
  | None => []
  | Some e => extra_id (x_val e) :: u8 (zlen (x_ser e)) :: x_ser e
  end.
(** the loop over the extras in Encode, t808_0x0200.go:143-152 *)
Definition enc_extras (l : list (option extra)) : bytes := concat (map enc_extra l).

(** t808_0x0200.go:220-246.  A decoded item keeps an empty [serialized] field. *)
Fixpoint dec_extras (fuel : nat) (buf : bytes) : res (list (option extra)) :=
  match fuel with
  | O => Err ErrFuel
  | S f =>
      match buf with
      | id :: len :: rest =>
          if zlen rest <? len then Err ErrInvalidExtraLength
          else let item := firstn (Z.to_nat len) rest in
               let rest' := skipn (Z.to_nat len) rest in
               match extra_decode id item with
               | Err ErrTypeNotRegistered => dec_extras f rest'
               | Err e => Err e
               | Panic => Panic
               | Ok (v, count) =>
                   if negb (count =? len) then Err ErrInvalidExtraLength
                   else do xs <- dec_extras f rest' ; Ok (Some (Extra v []) :: xs)
               end
      | _ => Ok []
      end
  end.

(** ** Terminal parameters, protocol/params.go:12-15 *)
Record param := Param { pr_id : Z; pr_val : bytes }.

(** SetByte, params.go:23-27 *)
Definition set_byte (id b : Z) : param := Param id [b].
(** SetBytes, params.go:30-36 (copies) *)
Definition set_bytes (id : Z) (b : bytes) : param := Param id b.
(** SetUint16, params.go:39-45 *)
Definition set_uint16 (id n : Z) : param := Param id (w_u16 n).
(** SetUint32, params.go:48-54 *)
Definition set_uint32 (id n : Z) : param := Param id (w_u32 n).
(** SetString, params.go:57-64: the transformer's error is ignored *)
Definition set_string (env : Env) (id : Z) (s : bytes) : param :=
  if zlen s =? 0 then set_bytes id [] else set_bytes id (fst (gb_enc env s)).
(** GetByte, params.go:67-72 *)
Definition get_byte (p : param) : res Z :=
  match pr_val p with b :: _ => Ok b | [] => Err PErrInvalidBody end.
(** GetBytes, params.go:75-79 *)
Definition get_bytes (p : param) : res bytes := Ok (pr_val p).
(** GetUint16, params.go:82-87 *)
Definition get_uint16 (p : param) : res Z :=
  match pr_val p with a :: b :: _ => Ok (be16 a b) | _ => Err PErrInvalidBody end.
(** GetUint32, params.go:90-95 *)
Definition get_uint32 (p : param) : res Z :=
  match pr_val p with a :: b :: c :: d :: _ => Ok (be32 a b c d) | _ => Err PErrInvalidBody end.
(** GetString, params.go:98-105 (no truncation at NUL) *)
Definition get_string (env : Env) (p : param) : res bytes :=
  let '(t, bad) := gb_dec env (pr_val p) in if bad then Err ErrText else Ok t.

(** t808_0x0104.go:25-34, t808_0x8103.go:20-29: a nil *Param panics *)
Definition enc_param (p : option param) : res bytes :=
  match p with
  | None => Panic
  | Some p => Ok (w_u32 (pr_id p) ++ w_byte (u8 (zlen (pr_val p))) ++ pr_val p)
  end.
(** t808_0x0104.go:61-80, t808_0x8103.go:49-68 *)
Definition r_param : R (option param) :=
  rd id <- r_u32 ;
  rd size <- r_byte ;
  rd v <- r_bytes size ;
  rret (Some (Param id v)).

(** ** 0x0001 terminal general response, t808_0x0001.go *)
Record t0001 := T0001 { a0001_serial : Z; a0001_msgid : Z; a0001_result : Z }.
(** t808_0x0001.go:17-29 *)
Definition enc_0001 (e : t0001) : bytes :=
  concat [w_u16 (a0001_serial e); w_u16 (a0001_msgid e); w_byte (a0001_result e)].
(** t808_0x0001.go:31-57 *)
Definition dec_0001 (data : bytes) : res (t0001 * Z) :=
  if zlen data <? 5 then Err PErrInvalidBody
  else run_count
    (rd serial <- r_u16 ; rd id <- r_u16 ; rd result <- r_byte ;
     rret (T0001 serial id result)) data.

(** ** 0x0100 registration, t808_0x0100.go *)
Record t0100 := T0100 {
  a0100_province : Z; a0100_city : Z; a0100_manu : bytes; a0100_model : bytes;
  a0100_term : bytes; a0100_color : Z; a0100_license : bytes }.
(** t808_0x0100.go:25-53 *)
Definition enc_0100 (env : Env) (e : t0100) : res bytes :=
  do lic <- w_str_opt env (a0100_license e) ;
  Ok (concat [w_u16 (a0100_province e); w_u16 (a0100_city e);
              w_fixed (a0100_manu e) 5; w_fixed (a0100_model e) 20;
              w_fixed (a0100_term e) 7; w_byte (a0100_color e); lic]).
(** t808_0x0100.go:55-110 *)
Definition dec_0100 (env : Env) (data : bytes) : res (t0100 * Z) :=
  if zlen data <? 37 then Err PErrInvalidBody
  else run_count
    (rd prov <- r_u16 ; rd city <- r_u16 ;
     rd manu <- r_bytes 5 ; rd model <- r_bytes 20 ; rd term <- r_bytes 7 ;
     rd color <- r_byte ; rd lic <- r_str_opt env ;
     rret (T0100 prov city (cstr manu) (cstr model) (cstr term) color lic)) data.

(** ** 0x0102 authentication, t808_0x0102.go *)
Record t0102 := T0102 { a0102_key : bytes }.
(** t808_0x0102.go:13-21 *)
Definition enc_0102 (env : Env) (e : t0102) : res bytes := w_str_opt env (a0102_key e).
(** t808_0x0102.go:23-35 *)
Definition dec_0102 (env : Env) (data : bytes) : res (t0102 * Z) :=
  if zlen data =? 0 then Err PErrInvalidBody
  else run_count (rd k <- r_str env ; rret (T0102 k)) data.

(** ** 0x0104 parameter query response, t808_0x0104.go *)
Record t0104 := T0104 { a0104_serial : Z; a0104_params : list (option param) }.
(** t808_0x0104.go:15-36 *)
Definition enc_0104 (e : t0104) : res bytes :=
  do ps <- mapM enc_param (a0104_params e) ;
  Ok (concat [w_u16 (a0104_serial e); w_byte (u8 (zlen (a0104_params e))); concat ps]).
(** t808_0x0104.go:38-83 *)
Definition dec_0104 (data : bytes) : res (t0104 * Z) :=
  if zlen data <=? 3 then Err PErrInvalidBody
  else run_count
    (rd serial <- r_u16 ; rd n <- r_byte ;
     rd ps <- r_list (Z.to_nat n) r_param ;
     rret (T0104 serial ps)) data.

(** ** 0x0107 terminal properties, t808_0x0107.go *)
Record t0107 := T0107 {
  a0107_type : Z; a0107_manu : bytes; a0107_model : bytes; a0107_term : bytes;
  a0107_sim : bytes; a0107_hw : bytes; a0107_sw : bytes; a0107_gnss : Z; a0107_comm : Z }.
(** t808_0x0107.go:35-69 *)
Definition enc_0107 (e : t0107) : bytes :=
  concat [w_u16 (a0107_type e); w_fixed (a0107_manu e) 5; w_fixed (a0107_model e) 20;
          w_fixed (a0107_term e) 7; string_to_bcd_n (a0107_sim e) 10;
          w_byte (u8 (zlen (a0107_hw e))); a0107_hw e;
          w_byte (u8 (zlen (a0107_sw e))); a0107_sw e;
          w_byte (a0107_gnss e); w_byte (a0107_comm e)].
(** t808_0x0107.go:71-150 ([temp[:size]] at line 136 is the whole of [temp]) *)
Definition dec_0107 (data : bytes) : res (t0107 * Z) :=
  if zlen data <? 48 then Err PErrInvalidBody
  else run_count
    (rd typ <- r_u16 ; rd manu <- r_bytes 5 ; rd model <- r_bytes 20 ;
     rd term <- r_bytes 7 ; rd sim <- r_bytes 10 ;
     rd n <- r_byte ; rd hw <- r_bytes n ;
     rd m <- r_byte ; rd sw <- r_bytes m ;
     rd g <- r_byte ; rd c <- r_byte ;
     rret (T0107 typ (cstr manu) (cstr model) (cstr term) (bcd_to_string sim)
                 (cstr hw) (cstr sw) g c)) data.

(** ** 0x0108 upgrade result, t808_0x0108.go *)
Record t0108 := T0108 { a0108_type : Z; a0108_result : Z }.
(** t808_0x0108.go:17-19 *)
Definition enc_0108 (e : t0108) : bytes := [a0108_type e; a0108_result e].
(** t808_0x0108.go:21-28 *)
Definition dec_0108 (data : bytes) : res (t0108 * Z) :=
  match data with
  | a :: b :: _ => Ok (T0108 a b, 2)
  | _ => Err PErrInvalidBody
  end.

(** ** 0x0200 position report, t808_0x0200.go *)
Record t0200 := T0200 {
  p_alarm : Z; p_status : Z; p_lat : decimal; p_lng : decimal; p_alt : Z;
  p_speed : Z; p_dir : Z; p_time : gotime; p_extras : list (option extra) }.

(** GetLatitudeType() == SouthLatitudeType etc., t808_0x0200.go:60-73 (bits 2, 3) *)
Definition st_south (s : Z) : bool := getb 32 s 2.
(** T808_0x0200_Status.GetLongitudeType, t808_0x0200.go:68-73 *)
Definition st_west (s : Z) : bool := getb 32 s 3.

(** The status word written by Encode, t808_0x0200.go:111-119: the bits are
    set for negative coordinates and never cleared. *)
Definition loc_status (e : t0200) : Z :=
  let s1 := if micro (p_lat e) <? 0 then setb 32 (p_status e) 2 true else p_status e in
  if micro (p_lng e) <? 0 then setb 32 s1 3 true else s1.

(** t808_0x0200.go:104-140, the fixed part *)
Definition enc_0200_fixed (env : Env) (e : t0200) : list bytes :=
  [w_u32 (p_alarm e); w_u32 (loc_status e);
   w_u32 (abs_u32 env (micro (p_lat e))); w_u32 (abs_u32 env (micro (p_lng e)));
   w_u16 (p_alt e); w_u16 (p_speed e); w_u16 (p_dir e); w_time env (p_time e)].
(** t808_0x0200.go:104-155 *)
Definition enc_0200 (env : Env) (e : t0200) : bytes :=
  concat (enc_0200_fixed env e ++ [enc_extras (p_extras e)]).
(** Receiver after Encode: the status word keeps the hemisphere bits. *)
Definition upd_0200 (e : t0200) : t0200 :=
  T0200 (p_alarm e) (loc_status e) (p_lat e) (p_lng e) (p_alt e) (p_speed e) (p_dir e)
        (p_time e) (p_extras e).

(** t808_0x0200.go:161-215 *)
Definition r_0200_fixed (env : Env) : R t0200 :=
  rd alarm <- r_u32 ; rd status <- r_u32 ; rd lat <- r_u32 ; rd lng <- r_u32 ;
  rd (la, lo) <- rlift (get_geo_point lat (st_south status) lng (st_west status)) ;
  rd alt <- r_u16 ; rd speed <- r_u16 ; rd dir <- r_u16 ; rd t <- r_time env ;
  rret (T0200 alarm status la lo alt speed dir t []).
(** assignment to the field Extras, t808_0x0200.go:220-246 *)
Definition with_extras (e : t0200) (xs : list (option extra)) : t0200 :=
  T0200 (p_alarm e) (p_status e) (p_lat e) (p_lng e) (p_alt e) (p_speed e) (p_dir e)
        (p_time e) xs.
(** t808_0x0200.go:157-251; the count excludes the extra items *)
Definition dec_0200 (env : Env) (data : bytes) : res (t0200 * Z) :=
  if zlen data <? 28 then Err PErrInvalidBody
  else match r_0200_fixed env data with
       | Err e => Err e
       | Panic => Panic
       | Ok (e, rest) =>
           do xs <- dec_extras (S (length rest)) rest ;
           Ok (with_extras e xs, zlen data - zlen rest)
       end.

(** [item.Location.Decode(buf)] inside another decoder *)
Definition r_0200_of (env : Env) (buf : bytes) : R t0200 :=
  rlift (do (e, _) <- dec_0200 env buf ; Ok e).

(** ** 0x0201 / 0x0500 position query / control response, t808_0x0201.go, t808_0x0500.go *)
Record t0201 := T0201 { a0201_serial : Z; a0201_loc : t0200 }.
(** t808_0x0201.go:15-28, t808_0x0500.go:15-28 *)
Definition enc_0201 (env : Env) (e : t0201) : bytes :=
  concat [w_u16 (a0201_serial e); enc_0200 env (a0201_loc e)].
(** what Encode leaves in the value: the nested location is encoded through a pointer, t808_0x0201.go:15-28 *)
Definition upd_0201 (e : t0201) : t0201 := T0201 (a0201_serial e) (upd_0200 (a0201_loc e)).
(** t808_0x0201.go:30-53, t808_0x0500.go:30-53 *)
Definition dec_0201 (env : Env) (data : bytes) : res (t0201 * Z) :=
  if zlen data <=? 3 then Err PErrInvalidBody
  else match r_u16 data with
       | Err e => Err e
       | Panic => Panic
       | Ok (serial, rest) =>
           do (loc, size) <- dec_0200 env rest ;
           Ok (T0201 serial loc, zlen data - zlen rest + size)
       end.

(** ** 0x0301, t808_0x0301.go:13-23 *)
Record t0301 := T0301 { a0301_event : Z }.
(** t808_0x0301.go:13-15 *)
Definition enc_0301 (e : t0301) : bytes := [a0301_event e].
(** t808_0x0301.go:17-23 *)
Definition dec_0301 (data : bytes) : res (t0301 * Z) :=
  match data with a :: _ => Ok (T0301 a, 1) | _ => Err PErrInvalidBody end.

(** ** 0x0302, t808_0x0302.go *)
Record t0302 := T0302 { a0302_serial : Z; a0302_answer : Z }.
(** t808_0x0302.go:15-20 *)
Definition enc_0302 (e : t0302) : bytes := concat [w_u16 (a0302_serial e); w_byte (a0302_answer e)].
(** t808_0x0302.go:22-31: reader errors are ignored, but cannot occur after the length check *)
Definition dec_0302 (data : bytes) : res (t0302 * Z) :=
  if zlen data <? 3 then Err PErrInvalidBody
  else run_count (rd s <- r_u16 ; rd a <- r_byte ; rret (T0302 s a)) data.

(** ** 0x0303, t808_0x0303.go:25-35: the reported count is 1 *)
Record t0303 := T0303 { a0303_type : Z; a0303_flag : Z }.
(** t808_0x0303.go:25-27 *)
Definition enc_0303 (e : t0303) : bytes := [a0303_type e; a0303_flag e].
(** t808_0x0303.go:29-36 *)
Definition dec_0303 (data : bytes) : res (t0303 * Z) :=
  match data with a :: b :: _ => Ok (T0303 a b, 1) | _ => Err PErrInvalidBody end.

(** ** 0x0700, t808_0x0700.go *)
Record t0700 := T0700 { a0700_serial : Z; a0700_cmd : Z; a0700_data : bytes }.
(** t808_0x0700.go:17-29 *)
Definition enc_0700 (e : t0700) : bytes :=
  concat [w_u16 (a0700_serial e); w_byte (a0700_cmd e); a0700_data e].
(** t808_0x0700.go:31-56 *)
Definition dec_0700 (data : bytes) : res (t0700 * Z) :=
  if zlen data <? 3 then Err PErrInvalidBody
  else run_count (rd s <- r_u16 ; rd c <- r_byte ; rd d <- r_all ; rret (T0700 s c d)) data.

(** ** 0x0701, t808_0x0701.go *)
Record t0701 := T0701 { a0701_size : Z; a0701_content : bytes }.
(** t808_0x0701.go:15-24 *)
Definition enc_0701 (e : t0701) : bytes := concat [w_u32 (a0701_size e); a0701_content e].
(** t808_0x0701.go:26-45 *)
Definition dec_0701 (data : bytes) : res (t0701 * Z) :=
  if zlen data <? 4 then Err PErrInvalidBody
  else run_count (rd s <- r_u32 ; rd d <- r_all ; rret (T0701 s d)) data.

(** ** 0x0702 driver identity, t808_0x0702.go *)
Record t0702 := T0702 {
  a0702_state : Z; a0702_time : gotime; a0702_ic : Z; a0702_name : bytes;
  a0702_number : bytes; a0702_company : bytes; a0702_expiry : gotime }.
(** t808_0x0702.go:41-85: the expiry date is formatted in its own Location *)
Definition enc_0702 (env : Env) (e : t0702) : res bytes :=
  do name <- w_str env (a0702_name e) ;
  do number <- w_str env (a0702_number e) ;
  do company <- w_str env (a0702_company e) ;
  Ok (concat [w_byte (a0702_state e); w_time env (a0702_time e); w_byte (a0702_ic e);
              w_byte (u8 (zlen name)); name; w_fixed number 20;
              w_byte (u8 (zlen company)); company;
              string_to_bcd_n (format_date (t_sec (a0702_expiry e) + t_zone (a0702_expiry e))) 4]).
(** t808_0x0702.go:87-149: the expiry date is parsed in time.Local *)
Definition dec_0702 (env : Env) (data : bytes) : res (t0702 * Z) :=
  if zlen data <? 34 then Err PErrInvalidBody
  else run_count
    (rd state <- r_byte ; rd t <- r_time env ; rd ic <- r_byte ;
     rd n <- r_byte ; rd name <- r_str_n env n ;
     rd number <- r_str_n env 20 ;
     rd m <- r_byte ; rd company <- r_str_n env m ;
     rd bcd <- r_bytes 4 ;
     rd ex <- rlift (parse_datetime (tz_off env) (bcd_to_string bcd ++ repeat 48 6)) ;
     rret (T0702 state t ic name number company ex)) data.

(** ** 0x0704 batch of positions, t808_0x0704.go *)
Record t0704 := T0704 { a0704_type : Z; a0704_items : list t0200 }.
(** one turn of the loop of t808_0x0704.go:26-33 *)
Definition enc_0704_item (env : Env) (p : t0200) : bytes :=
  let d := enc_0200 env p in w_u16 (u16 (zlen d)) ++ d.
(** t808_0x0704.go:16-35 (encodes copies: the items are not modified) *)
Definition enc_0704 (env : Env) (e : t0704) : bytes :=
  concat [w_u16 (u16 (zlen (a0704_items e))); w_byte (a0704_type e);
          concat (map (enc_0704_item env) (a0704_items e))].
(** one turn of the loop of t808_0x0704.go:57-74 *)
Definition r_0704_item (env : Env) : R t0200 :=
  rd size <- r_u16 ; rd buf <- r_bytes size ; r_0200_of env buf.
(** t808_0x0704.go:37-76 *)
Definition dec_0704 (env : Env) (data : bytes) : res (t0704 * Z) :=
  if zlen data <? 3 then Err PErrInvalidBody
  else run_count
    (rd n <- r_u16 ; rd typ <- r_byte ;
     rd items <- r_list (Z.to_nat n) (r_0704_item env) ;
     rret (T0704 typ items)) data.

(** ** 0x0705 CAN upload, t808_0x0705.go; ReceiveTime in nanoseconds *)
Record can := Can { can_id : bytes; can_data : bytes }.
(** t808_0x0705.go:11-16 *)
Record t0705 := T0705 { a0705_time : Z; a0705_items : list can }.
(** time.Hour in nanoseconds, t808_0x0705.go:41-51 *)
Definition ns_hour : Z := 3600000000000.
(** time.Millisecond in nanoseconds, t808_0x0705.go:41-51 *)
Definition ns_ms : Z := 1000000.
(** t808_0x0705.go:41-43 *)
Definition clamp_0705 (d : Z) : Z := if 24 * ns_hour <? d then 24 * ns_hour else d.
(** t808_0x0705.go:44-46: time.Time{} is midnight UTC, so the clock reads d mod 24h *)
Definition can_clock (d : Z) : bytes :=
  let n := d mod (24 * ns_hour) in
  format_pad 2 (n / ns_hour) ++ format_pad 2 (n / (60 * 1000 * ns_ms) mod 60) ++
  format_pad 2 (n / (1000 * ns_ms) mod 60) ++ format_pad 4 (n / ns_ms mod 1000).
(** t808_0x0705.go:34-55; ID and Data are arrays of 4 and 8 bytes *)
Definition enc_0705 (e : t0705) : bytes :=
  concat [w_u16 (u16 (zlen (a0705_items e)));
          w_fixed (string_to_bcd (can_clock (clamp_0705 (a0705_time e)))) 5;
          concat (map (fun c => can_id c ++ can_data c) (a0705_items e))].
(** what Encode leaves in the value (it clamps the field itself), t808_0x0705.go:41-43 *)
Definition upd_0705 (e : t0705) : t0705 := T0705 (clamp_0705 (a0705_time e)) (a0705_items e).
(** one turn of the loop of t808_0x0705.go:89-104 *)
Definition r_can : R can := rd i <- r_bytes 4 ; rd d <- r_bytes 8 ; rret (Can i d).
(** t808_0x0705.go:74-85: errors of Atoi are ignored *)
Definition can_time (buf : bytes) : res Z :=
  let s := bcd_to_string_pad true buf in
  if negb (zlen s =? 10) then Err ErrOther
  else Ok (atoi_or_zero (firstn 2 s) * ns_hour +
           atoi_or_zero (firstn 2 (skipn 2 s)) * (60 * 1000 * ns_ms) +
           atoi_or_zero (firstn 2 (skipn 4 s)) * (1000 * ns_ms) +
           atoi_or_zero (firstn 4 (skipn 6 s)) * ns_ms).
(** t808_0x0705.go:57-106 *)
Definition dec_0705 (data : bytes) : res (t0705 * Z) :=
  if zlen data <? 7 then Err PErrInvalidBody
  else run_count
    (rd n <- r_u16 ; rd buf <- r_bytes 5 ; rd t <- rlift (can_time buf) ;
     rd items <- r_list (Z.to_nat n) r_can ;
     rret (T0705 t items)) data.

(** ** 0x0800 multimedia event, t808_0x0800.go *)
Record t0800 := T0800 {
  a0800_media : Z; a0800_type : Z; a0800_coding : Z; a0800_event : Z; a0800_chan : Z }.
(** t808_0x0800.go:41-59 *)
Definition enc_0800 (e : t0800) : bytes :=
  concat [w_u32 (a0800_media e); w_byte (a0800_type e); w_byte (a0800_coding e);
          w_byte (a0800_event e); w_byte (a0800_chan e)].
(** the reads of t808_0x0800.go:61-100 *)
Definition r_0800 : R t0800 :=
  rd m <- r_u32 ; rd t <- r_byte ; rd c <- r_byte ; rd ev <- r_byte ; rd ch <- r_byte ;
  rret (T0800 m t c ev ch).
(** t808_0x0800.go:61-100 *)
Definition dec_0800 (data : bytes) : res (t0800 * Z) :=
  if zlen data <? 8 then Err PErrInvalidBody else run_count r_0800 data.

(** ** 0x0801 multimedia upload, t808_0x0801.go.  [Packet] is an io.Reader:
    what ioutil.ReadAll would return from it, and whether it ends in an error. *)
Record rdr := Rdr { rdr_data : bytes; rdr_fail : bool }.
(** t808_0x0801.go:10-27; [Packet] is an io.Reader, [None] when nil *)
Record t0801 := T0801 { a0801_head : t0800; a0801_loc : t0200; a0801_packet : option rdr }.
(** t808_0x0801.go:31-66 *)
Definition enc_0801 (env : Env) (e : t0801) : res bytes :=
  let head := concat [enc_0800 (a0801_head e); enc_0200 env (with_extras (a0801_loc e) [])] in
  match a0801_packet e with
  | None => Ok head
  | Some r => if rdr_fail r then Err ErrOther else Ok (head ++ rdr_data r)
  end.
(** Receiver after Encode: extras dropped, status bits kept, reader exhausted. *)
Definition upd_0801 (e : t0801) : t0801 :=
  T0801 (a0801_head e) (upd_0200 (with_extras (a0801_loc e) []))
        (match a0801_packet e with None => None | Some _ => Some (Rdr [] false) end).
(** t808_0x0801.go:68-116 *)
Definition dec_0801 (env : Env) (data : bytes) : res (t0801 * Z) :=
  if zlen data <? 36 then Err PErrInvalidBody
  else run_count
    (rd h <- r_0800 ; rd buf <- r_bytes 28 ; rd loc <- r_0200_of env buf ;
     rret (T0801 h loc None)) data.
(** DecodePacket, t808_0x0801.go:130-137 ([data[n:]] with n from Decode) *)
Definition dec_0801_packet (env : Env) (data : bytes) : res t0801 :=
  do (e, n) <- dec_0801 env data ;
  if (n <? 0) || (zlen data <? n) then Panic
  else Ok (T0801 (a0801_head e) (a0801_loc e) (Some (Rdr (skipn (Z.to_nat n) data) false))).

(** ** 0x0802 multimedia search response, t808_0x0802.go *)
Record i0802 := I0802 { i0802_media : Z; i0802_type : Z; i0802_chan : Z; i0802_event : Z; i0802_loc : t0200 }.
(** t808_0x0802.go:4-9 *)
Record t0802 := T0802 { a0802_serial : Z; a0802_items : list i0802 }.
(** t808_0x0802.go:40-60 (on copies of the items) *)
Definition enc_0802_item (env : Env) (i : i0802) : bytes :=
  concat [w_u32 (i0802_media i); w_byte (i0802_type i); w_byte (i0802_chan i);
          w_byte (i0802_event i); enc_0200 env (with_extras (i0802_loc i) [])].
(** t808_0x0802.go:30-62 *)
Definition enc_0802 (env : Env) (e : t0802) : bytes :=
  concat [w_u16 (a0802_serial e); w_u16 (u16 (zlen (a0802_items e)));
          concat (map (enc_0802_item env) (a0802_items e))].
(** one turn of the loop of t808_0x0802.go:85-122 *)
Definition r_0802_item (env : Env) : R i0802 :=
  rd m <- r_u32 ; rd t <- r_byte ; rd c <- r_byte ; rd ev <- r_byte ;
  rd buf <- r_bytes 28 ; rd loc <- r_0200_of env buf ;
  rret (I0802 m t c ev loc).
(** t808_0x0802.go:64-125 *)
Definition dec_0802 (env : Env) (data : bytes) : res (t0802 * Z) :=
  if zlen data <? 4 then Err PErrInvalidBody
  else run_count
    (rd s <- r_u16 ; rd n <- r_u16 ;
     rd items <- r_list (Z.to_nat n) (r_0802_item env) ;
     rret (T0802 s items)) data.

(** ** 0x0805, t808_0x0805.go *)
Record t0805 := T0805 { a0805_serial : Z; a0805_result : Z; a0805_ids : list Z }.
(** t808_0x0805.go:30-47 *)
Definition enc_0805 (e : t0805) : bytes :=
  concat [w_u16 (a0805_serial e); w_byte (a0805_result e); w_u16 (u16 (zlen (a0805_ids e)));
          concat (map w_u32 (a0805_ids e))].
(** t808_0x0805.go:49-85 *)
Definition dec_0805 (data : bytes) : res (t0805 * Z) :=
  if zlen data <? 3 then Err PErrInvalidBody
  else run_count
    (rd s <- r_u16 ; rd r <- r_byte ; rd n <- r_u16 ;
     rd ids <- r_list (Z.to_nat n) r_u32 ;
     rret (T0805 s r ids)) data.

(** ** 0x0900 / 0x8900 transparent data, t808_0x0900.go:21-33, t808_0x8900.go:15-28;
    0x8700, 0x8701 have the same layout *)
Record tdata := TData { td_type : Z; td_data : bytes }.
(** t808_0x0900.go:21-25, t808_0x8900.go:15-20 *)
Definition enc_data (e : tdata) : bytes := concat [w_byte (td_type e); td_data e].
(** t808_0x0900.go:27-33, t808_0x8900.go:22-28 *)
Definition dec_data (data : bytes) : res (tdata * Z) :=
  match data with
  | a :: t => Ok (TData a t, zlen data)
  | [] => Err PErrInvalidBody
  end.

(** ** 0x0901 compressed upload, t808_0x0901.go *)
Record t0901 := T0901 { a0901_data : bytes }.
(** t808_0x0901.go:20-35 *)
Definition enc_0901 (env : Env) (e : t0901) : bytes :=
  let z := gz_enc env (a0901_data e) in concat [w_u32 (u32 (zlen z)); z].
(** t808_0x0901.go:62-76: a read error other than EOF ends the loop silently *)
Fixpoint gz_loop (steps : list (bytes * gzstat)) : res bytes :=
  match steps with
  | [] => Err ErrFuel
  | (chunk, st) :: t =>
      match st with
      | GzErr => Ok []
      | GzEOF => Ok chunk
      | GzMore => do r <- gz_loop t ; Ok (chunk ++ r)
      end
  end.
(** t808_0x0901.go:37-79 *)
Definition dec_0901 (env : Env) (data : bytes) : res (t0901 * Z) :=
  if zlen data <? 4 then Err PErrInvalidBody
  else run_count
    (rd size <- r_u32 ; rd z <- r_bytes size ;
     rd d <- rlift (match gz_dec env z with None => Err ErrGzip | Some steps => gz_loop steps end) ;
     rret (T0901 d)) data.

(** ** 0x0A00 / 0x8A00 RSA public key, t808_0x0a00.go, t808_0x8a00.go *)
(** PublicKey *rsa.PublicKey with E int and N *big.Int, both possibly nil *)
Record t0a00 := T0A00 { a0a00_key : option (Z * option Z) }.
(** big.Int.Bytes / PublicKey.Size = (N.BitLen()+7)/8 *)
Definition n_size (n : Z) : Z := if n =? 0 then 0 else (Z.log2 (Z.abs n) + 1 + 7) / 8.
(** big.Int.Bytes, used at t808_0x0a00.go:28 and t808_0x8a00.go:28 *)
Fixpoint be_bytes (k : nat) (n : Z) : bytes :=
  match k with
  | O => []
  | S k' => be_bytes k' (n / 256) ++ [n mod 256]
  end.
(** big.Int.SetBytes *)
Definition be_value (l : bytes) : Z := fold_left (fun acc b => acc * 256 + b) l 0.
(** t808_0x0a00.go:18-30 *)
Definition enc_0a00 (e : t0a00) : res bytes :=
  match a0a00_key e with
  | Some (exp, Some n) =>
      if negb (n_size n =? 128) then Err ErrKey
      else Ok (concat [w_u32 (u32 exp); w_fixed (be_bytes (Z.to_nat (n_size n)) (Z.abs n)) 128])
  | _ => Err ErrKey
  end.
(** t808_0x0a00.go:32-53 *)
Definition dec_0a00 (data : bytes) : res (t0a00 * Z) :=
  if zlen data <? 132 then Err PErrInvalidBody
  else run_count
    (rd e <- r_u32 ; rd n <- r_bytes 128 ; rret (T0A00 (Some (e, Some (be_value n))))) data.
