(** The 65 built-in message bodies as one type, with the registry of
    protocol/register.go.  Entities of equal layout share a record type. *)
From Verif Require Import Base Bits Bcd GoTime Decimal Env EntTerm EntPlat.

(** A protocol.Entity pointing to one of the built-in structs. *)
Inductive entity :=
| E0001 (e : t0001)
| E0002
| E0003
| E0100 (e : t0100)
| E0102 (e : t0102)
| E0104 (e : t0104)
| E0107 (e : t0107)
| E0108 (e : t0108)
| E0200 (e : t0200)
| E0201 (e : t0201)
| E0301 (e : t0301)
| E0302 (e : t0302)
| E0303 (e : t0303)
| E0500 (e : t0201)
| E0700 (e : t0700)
| E0701 (e : t0701)
| E0702 (e : t0702)
| E0704 (e : t0704)
| E0705 (e : t0705)
| E0800 (e : t0800)
| E0801 (e : t0801)
| E0802 (e : t0802)
| E0805 (e : t0805)
| E0900 (e : tdata)
| E0901 (e : t0901)
| E0A00 (e : t0a00)
| E8001 (e : t8001)
| E8003 (e : t8003)
| E8100 (e : t8100)
| E8103 (e : t8103)
| E8104
| E8105 (e : ttext)
| E8106 (e : tids)
| E8107
| E8108 (e : t8108)
| E8201
| E8202 (e : t8202)
| E8203 (e : t8202)
| E8300 (e : ttext)
| E8301 (e : t8301)
| E8302 (e : t8302)
| E8303 (e : t8303)
| E8304 (e : t8304)
| E8400 (e : t8400)
| E8401 (e : t8401)
| E8500 (e : t8500)
| E8600 (e : t8600)
| E8601 (e : tids)
| E8602 (e : t8602)
| E8603 (e : tids)
| E8604 (e : t8604)
| E8605 (e : tids)
| E8606 (e : t8606)
| E8607 (e : tids)
| E8700 (e : tdata)
| E8701 (e : tdata)
| E8702
| E8800 (e : t8800)
| E8801 (e : t8801)
| E8802 (e : t8802)
| E8803 (e : t8803)
| E8804 (e : t8804)
| E8805 (e : t8805)
| E8900 (e : tdata)
| E8A00 (e : t0a00).

(** The MsgID methods; constants of protocol/register.go:6-137 *)
Definition entity_id (e : entity) : Z :=
  match e with
  | E0001 _ => 1 (* 0x0001 *)
  | E0002 => 2 (* 0x0002 *)
  | E0003 => 3 (* 0x0003 *)
  | E0100 _ => 256 (* 0x0100 *)
  | E0102 _ => 258 (* 0x0102 *)
  | E0104 _ => 260 (* 0x0104 *)
  | E0107 _ => 263 (* 0x0107 *)
  | E0108 _ => 264 (* 0x0108 *)
  | E0200 _ => 512 (* 0x0200 *)
  | E0201 _ => 513 (* 0x0201 *)
  | E0301 _ => 769 (* 0x0301 *)
  | E0302 _ => 770 (* 0x0302 *)
  | E0303 _ => 771 (* 0x0303 *)
  | E0500 _ => 1280 (* 0x0500 *)
  | E0700 _ => 1792 (* 0x0700 *)
  | E0701 _ => 1793 (* 0x0701 *)
  | E0702 _ => 1794 (* 0x0702 *)
  | E0704 _ => 1796 (* 0x0704 *)
  | E0705 _ => 1797 (* 0x0705 *)
  | E0800 _ => 2048 (* 0x0800 *)
  | E0801 _ => 2049 (* 0x0801 *)
  | E0802 _ => 2050 (* 0x0802 *)
  | E0805 _ => 2053 (* 0x0805 *)
  | E0900 _ => 2304 (* 0x0900 *)
  | E0901 _ => 2305 (* 0x0901 *)
  | E0A00 _ => 2560 (* 0x0A00 *)
  | E8001 _ => 32769 (* 0x8001 *)
  | E8003 _ => 32771 (* 0x8003 *)
  | E8100 _ => 33024 (* 0x8100 *)
  | E8103 _ => 33027 (* 0x8103 *)
  | E8104 => 33028 (* 0x8104 *)
  | E8105 _ => 33029 (* 0x8105 *)
  | E8106 _ => 33030 (* 0x8106 *)
  | E8107 => 33031 (* 0x8107 *)
  | E8108 _ => 33032 (* 0x8108 *)
  | E8201 => 33281 (* 0x8201 *)
  | E8202 _ => 33282 (* 0x8202 *)
  | E8203 _ => 33283 (* 0x8203 *)
  | E8300 _ => 33536 (* 0x8300 *)
  | E8301 _ => 33537 (* 0x8301 *)
  | E8302 _ => 33538 (* 0x8302 *)
  | E8303 _ => 33539 (* 0x8303 *)
  | E8304 _ => 33540 (* 0x8304 *)
  | E8400 _ => 33792 (* 0x8400 *)
  | E8401 _ => 33793 (* 0x8401 *)
  | E8500 _ => 34048 (* 0x8500 *)
  | E8600 _ => 34304 (* 0x8600 *)
  | E8601 _ => 34305 (* 0x8601 *)
  | E8602 _ => 34306 (* 0x8602 *)
  | E8603 _ => 34307 (* 0x8603 *)
  | E8604 _ => 34308 (* 0x8604 *)
  | E8605 _ => 34309 (* 0x8605 *)
  | E8606 _ => 34310 (* 0x8606 *)
  | E8607 _ => 34311 (* 0x8607 *)
  | E8700 _ => 34560 (* 0x8700 *)
  | E8701 _ => 34561 (* 0x8701 *)
  | E8702 => 34562 (* 0x8702 *)
  | E8800 _ => 34816 (* 0x8800 *)
  | E8801 _ => 34817 (* 0x8801 *)
  | E8802 _ => 34818 (* 0x8802 *)
  | E8803 _ => 34819 (* 0x8803 *)
  | E8804 _ => 34820 (* 0x8804 *)
  | E8805 _ => 34821 (* 0x8805 *)
  | E8900 _ => 35072 (* 0x8900 *)
  | E8A00 _ => 35328 (* 0x8A00 *)
  end.

(** storing a decoded value in the interface Entity, protocol/message.go:182-203 *)
Definition omap {A B} (f : A -> B) (r : res (A * Z)) : res (B * Z) :=
  do (a, n) <- r ; Ok (f a, n).

(** entity.Encode(): the bytes.  Errors leave no bytes. *)
Definition encode (env : Env) (e : entity) : res bytes :=
  match e with
  | E0001 x => Ok (enc_0001 x)
  | E0002 => Ok enc_empty
  | E0003 => Ok enc_empty
  | E0100 x => enc_0100 env x
  | E0102 x => enc_0102 env x
  | E0104 x => enc_0104 x
  | E0107 x => Ok (enc_0107 x)
  | E0108 x => Ok (enc_0108 x)
  | E0200 x => Ok (enc_0200 env x)
  | E0201 x => Ok (enc_0201 env x)
  | E0301 x => Ok (enc_0301 x)
  | E0302 x => Ok (enc_0302 x)
  | E0303 x => Ok (enc_0303 x)
  | E0500 x => Ok (enc_0201 env x)
  | E0700 x => Ok (enc_0700 x)
  | E0701 x => Ok (enc_0701 x)
  | E0702 x => enc_0702 env x
  | E0704 x => Ok (enc_0704 env x)
  | E0705 x => Ok (enc_0705 x)
  | E0800 x => Ok (enc_0800 x)
  | E0801 x => enc_0801 env x
  | E0802 x => Ok (enc_0802 env x)
  | E0805 x => Ok (enc_0805 x)
  | E0900 x => Ok (enc_data x)
  | E0901 x => Ok (enc_0901 env x)
  | E0A00 x => enc_0a00 x
  | E8001 x => Ok (enc_8001 x)
  | E8003 x => Ok (enc_8003 x)
  | E8100 x => enc_8100 env x
  | E8103 x => enc_8103 x
  | E8104 => Ok enc_empty
  | E8105 x => enc_text env x
  | E8106 x => Ok (enc_ids x)
  | E8107 => Ok enc_empty
  | E8108 x => enc_8108 env x
  | E8201 => Ok enc_empty
  | E8202 x => Ok (enc_8202 x)
  | E8203 x => Ok (enc_8202 x)
  | E8300 x => enc_text env x
  | E8301 x => enc_8301 env x
  | E8302 x => enc_8302 env x
  | E8303 x => enc_8303 env x
  | E8304 x => enc_8304 env x
  | E8400 x => Ok (enc_8400 env x)
  | E8401 x => enc_8401 env x
  | E8500 x => Ok (enc_8500 x)
  | E8600 x => Ok (enc_8600 env x)
  | E8601 x => Ok (enc_ids x)
  | E8602 x => Ok (enc_8602 env x)
  | E8603 x => Ok (enc_ids x)
  | E8604 x => Ok (enc_8604 env x)
  | E8605 x => Ok (enc_ids x)
  | E8606 x => Ok (enc_8606 env x)
  | E8607 x => Ok (enc_ids x)
  | E8700 x => Ok (enc_data x)
  | E8701 x => Ok (enc_data x)
  | E8702 => Ok enc_empty
  | E8800 x => Ok (enc_8800 x)
  | E8801 x => Ok (enc_8801 x)
  | E8802 x => Ok (enc_8802 env x)
  | E8803 x => Ok (enc_8803 env x)
  | E8804 x => Ok (enc_8804 x)
  | E8805 x => Ok (enc_8805 x)
  | E8900 x => Ok (enc_data x)
  | E8A00 x => enc_0a00 x
  end.

(** The receiver after a successful entity.Encode(). *)
Definition encoded (e : entity) : entity :=
  match e with
  | E0200 x => E0200 (upd_0200 x)
  | E0201 x => E0201 (upd_0201 x)
  | E0500 x => E0500 (upd_0201 x)
  | E0705 x => E0705 (upd_0705 x)
  | E0801 x => E0801 (upd_0801 x)
  | E8600 x => E8600 (upd_8600 x)
  | E8602 x => E8602 (upd_8602 x)
  | E8604 x => E8604 (upd_8604 x)
  | _ => e
  end.

(** entity.Decode(data) on a fresh entity of type [typ]
    (Message.decode, protocol/message.go:182-203): through entityMapper
    (protocol/register.go:140-336, built-in entries; Register is in Custom.v).
    0x0801 is the only EntityPacket and goes through DecodePacket. *)
Definition decode (env : Env) (typ : Z) (data : bytes) : res (entity * Z) :=
  if typ =? 1 then omap E0001 (dec_0001 data) else
  if typ =? 2 then omap (fun _ => E0002) (dec_empty data) else
  if typ =? 3 then omap (fun _ => E0003) (dec_empty data) else
  if typ =? 256 then omap E0100 (dec_0100 env data) else
  if typ =? 258 then omap E0102 (dec_0102 env data) else
  if typ =? 260 then omap E0104 (dec_0104 data) else
  if typ =? 263 then omap E0107 (dec_0107 data) else
  if typ =? 264 then omap E0108 (dec_0108 data) else
  if typ =? 512 then omap E0200 (dec_0200 env data) else
  if typ =? 513 then omap E0201 (dec_0201 env data) else
  if typ =? 769 then omap E0301 (dec_0301 data) else
  if typ =? 770 then omap E0302 (dec_0302 data) else
  if typ =? 771 then omap E0303 (dec_0303 data) else
  if typ =? 1280 then omap E0500 (dec_0201 env data) else
  if typ =? 1792 then omap E0700 (dec_0700 data) else
  if typ =? 1793 then omap E0701 (dec_0701 data) else
  if typ =? 1794 then omap E0702 (dec_0702 env data) else
  if typ =? 1796 then omap E0704 (dec_0704 env data) else
  if typ =? 1797 then omap E0705 (dec_0705 data) else
  if typ =? 2048 then omap E0800 (dec_0800 data) else
  if typ =? 2049 then (do x <- dec_0801_packet env data ; Ok (E0801 x, zlen data)) else
  if typ =? 2050 then omap E0802 (dec_0802 env data) else
  if typ =? 2053 then omap E0805 (dec_0805 data) else
  if typ =? 2304 then omap E0900 (dec_data data) else
  if typ =? 2305 then omap E0901 (dec_0901 env data) else
  if typ =? 2560 then omap E0A00 (dec_0a00 data) else
  if typ =? 32769 then omap E8001 (dec_8001 data) else
  if typ =? 32771 then omap E8003 (dec_8003 data) else
  if typ =? 33024 then omap E8100 (dec_8100 env data) else
  if typ =? 33027 then omap E8103 (dec_8103 data) else
  if typ =? 33028 then omap (fun _ => E8104) (dec_empty data) else
  if typ =? 33029 then omap E8105 (dec_text env data) else
  if typ =? 33030 then omap E8106 (dec_ids data) else
  if typ =? 33031 then omap (fun _ => E8107) (dec_empty data) else
  if typ =? 33032 then omap E8108 (dec_8108 env data) else
  if typ =? 33281 then omap (fun _ => E8201) (dec_empty data) else
  if typ =? 33282 then omap E8202 (dec_8202 data) else
  if typ =? 33283 then omap E8203 (dec_8202 data) else
  if typ =? 33536 then omap E8300 (dec_text env data) else
  if typ =? 33537 then omap E8301 (dec_8301 env data) else
  if typ =? 33538 then omap E8302 (dec_8302 env data) else
  if typ =? 33539 then omap E8303 (dec_8303 env data) else
  if typ =? 33540 then omap E8304 (dec_8304 env data) else
  if typ =? 33792 then omap E8400 (dec_8400 env data) else
  if typ =? 33793 then omap E8401 (dec_8401 env data) else
  if typ =? 34048 then omap E8500 (dec_8500 data) else
  if typ =? 34304 then omap E8600 (dec_8600 env data) else
  if typ =? 34305 then omap E8601 (dec_ids data) else
  if typ =? 34306 then omap E8602 (dec_8602 env data) else
  if typ =? 34307 then omap E8603 (dec_ids data) else
  if typ =? 34308 then omap E8604 (dec_8604 env data) else
  if typ =? 34309 then omap E8605 (dec_ids data) else
  if typ =? 34310 then omap E8606 (dec_8606 env data) else
  if typ =? 34311 then omap E8607 (dec_8607 data) else
  if typ =? 34560 then omap E8700 (dec_data data) else
  if typ =? 34561 then omap E8701 (dec_data data) else
  if typ =? 34562 then omap (fun _ => E8702) (dec_empty data) else
  if typ =? 34816 then omap E8800 (dec_8800 data) else
  if typ =? 34817 then omap E8801 (dec_8801 data) else
  if typ =? 34818 then omap E8802 (dec_8802 env data) else
  if typ =? 34819 then omap E8803 (dec_8803 env data) else
  if typ =? 34820 then omap E8804 (dec_8804 data) else
  if typ =? 34821 then omap E8805 (dec_8805 data) else
  if typ =? 35072 then omap E8900 (dec_data data) else
  if typ =? 35328 then omap E8A00 (dec_0a00 data) else
  Err ErrTypeNotRegistered.

(** The registered message IDs. *)
Definition registered : list Z :=
  [1; 2; 3; 256; 258; 260; 263; 264; 512; 513; 769; 770; 771; 1280; 1792; 1793; 1794; 1796; 1797; 2048; 2049; 2050; 2053; 2304; 2305; 2560; 32769; 32771; 33024; 33027; 33028; 33029; 33030; 33031; 33032; 33281; 33282; 33283; 33536; 33537; 33538; 33539; 33540; 33792; 33793; 34048; 34304; 34305; 34306; 34307; 34308; 34309; 34310; 34311; 34560; 34561; 34562; 34816; 34817; 34818; 34819; 34820; 34821; 35072; 35328].
