(** What the Decode functions reserve with make before they read a list. *)
From Verif Require Import Base Env EntTerm EntPlat Registry.

(** the capacity given to make when [p] reads it; 0 if a test or a read before it fails, e.g. protocol/t808_0x0704.go:38-56 *)
Definition reaches (short : bool) (p : R Z) (data : bytes) : Z :=
  if short then 0 else match p data with Ok (n, _) => n | _ => 0 end.
(** The number of elements reserved by Decode, per message type: protocol/t808_0x0104.go:58, t808_0x0704.go:56, t808_0x0705.go:88,
    t808_0x0802.go:84, t808_0x0805.go:76, t808_0x8103.go:46, t808_0x8106.go:29, t808_0x8600.go:170, t808_0x8601.go:33, t808_0x8602.go:135,
    t808_0x8603.go:33, t808_0x8604.go:148, t808_0x8605.go:33. The other types reserve nothing. The 0x0200 bodies inside 0x0704 and 0x0802
    reserve nothing either (t808_0x0200.go:218). How many bytes an element takes is not modelled. *)
Definition reserved (env : Env) (typ : Z) (data : bytes) : Z :=
  if typ =? 260 then reaches (zlen data <=? 3) (rd _ <- r_u16 ; r_byte) data else
  if typ =? 1796 then reaches (zlen data <? 3) (rd n <- r_u16 ; rd _ <- r_byte ; rret n) data else
  if typ =? 1797 then reaches (zlen data <? 7) (rd n <- r_u16 ; rd buf <- r_bytes 5 ; rd _ <- rlift (can_time buf) ; rret n) data else
  if typ =? 2050 then reaches (zlen data <? 4) (rd _ <- r_u16 ; r_u16) data else
  if typ =? 2053 then reaches (zlen data <? 3) (rd _ <- r_u16 ; rd _ <- r_byte ; r_u16) data else
  if typ =? 33027 then reaches (zlen data <=? 3) r_byte data else
  if (typ =? 33030) || (typ =? 34305) || (typ =? 34307) || (typ =? 34309) then reaches (zlen data <? 1) r_byte data else
  if typ =? 34304 then reaches (zlen data <? 20) (rd _ <- r_byte ; r_byte) data else
  if typ =? 34306 then reaches (zlen data <? 24) (rd _ <- r_byte ; r_byte) data else
  if typ =? 34308 then reaches (zlen data <? 16) (rd _ <- r_u32 ; rd attr <- r_u16 ; rd _ <- r_limits_if env (at_timed attr) ; r_u16) data else
  0.
