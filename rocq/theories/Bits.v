(** protocol/bit.go and protocol/property.go *)
From Verif Require Import Base.

(** The mask [1 << offset] in a [w]-bit unsigned type (Go drops the bits shifted out). *)
Definition bitmask (w off : Z) : Z := Z.shiftl 1 off mod 2 ^ w.

(** [value&(1<<offset) > 0]: bit.go:7, 25, 43 *)
Definition getb (w v off : Z) : bool := Z.land v (bitmask w off) >? 0.

(** [*value |= 1 << offset] / [*value &= ^(1 << offset)]: bit.go:14-18, 32-36, 50-54 *)
Definition setb (w v off : Z) (b : bool) : Z :=
  if b then Z.lor v (bitmask w off)
  else Z.land v (2 ^ w - 1 - bitmask w off).

(** GetBitByte / GetBitUint16 / GetBitUint32, bit.go:3-8, 21-26, 39-44, with
    [w] = 8, 16, 32.  A negative offset is a negative shift count: panic. *)
Definition get_bit (w v off : Z) : res bool :=
  if off >=? w then Ok false
  else if off <? 0 then Panic
  else Ok (getb w v off).

(** SetBitByte / SetBitUint16 / SetBitUint32, bit.go:10-19, 28-37, 46-55: the
    guard is [offset >= 32] for all three widths. *)
Definition set_bit (w v off : Z) (b : bool) : res Z :=
  if off >=? 32 then Ok v
  else if off <? 0 then Panic
  else Ok (setb w v off b).

(** Property.enablePacket, property.go:11-14 *)
Definition enable_packet (p : Z) : Z := Z.lor p (Z.shiftl 1 13).
(** Property.enableEncrypt, property.go:17-20 *)
Definition enable_encrypt (p : Z) : Z := Z.lor p (Z.shiftl 1 10).
(** Property.IsEnablePacket, property.go:23-26 *)
Definition is_enable_packet (p : Z) : bool := Z.land p (Z.shiftl 1 13) >? 0.
(** Property.IsEnableEncrypt, property.go:29-32 *)
Definition is_enable_encrypt (p : Z) : bool := Z.land p (Z.shiftl 1 10) >? 0.
(** Property.GetBodySize, property.go:35-40: [((val << 6) >> 6) & 0x3ff] on uint16 *)
Definition get_body_size (p : Z) : Z :=
  Z.land (Z.shiftr (u16 (Z.shiftl p 6)) 6) 1023.
(** Property.SetBodySize, property.go:43-50 *)
Definition set_body_size (p size : Z) : res Z :=
  if size >? 1023 then Err ErrBodyTooLong
  else Ok (Z.lor (Z.shiftl (Z.shiftr p 10) 10) size).
