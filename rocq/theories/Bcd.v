(** Decimal text and BCD: protocol/helpers.go:65-117, strconv. *)
From Verif Require Import Base.

(** Decimal digits of [n >= 0], least significant first, at least one digit. *)
Fixpoint digits_rev (fuel : nat) (n : Z) : list Z :=
  match fuel with
  | O => [n mod 10]
  | S f => if n <? 10 then [n] else (n mod 10) :: digits_rev f (n / 10)
  end.

(** strconv.FormatUint(n, 10) as the list of digit values; the fuel bounds
    the number of digits by the number of bits. *)
Definition dec_digits (n : Z) : list Z := rev (digits_rev (Z.to_nat (Z.log2 n + 1)) n).

(** Characters '0'..'9'. *)
Definition chars (ds : list Z) : bytes := map (fun d => d + 48) ds.

(** strconv.FormatUint(n, 10): used in header.go:37, session/server ids. *)
Definition format_uint (n : Z) : bytes := chars (dec_digits n).

(** fmt "%0wd" / time's appendInt(b, n, w): zero padded to width [w];
    a minus sign in front for negative numbers. *)
Definition pad_digits (w : nat) (ds : list Z) : list Z := repeat 0 (w - length ds) ++ ds.
(** fmt.Sprintf("%0wd", n), as used by protocol/t808_0x0705.go:45-46 and inside time.Format, protocol/helpers.go:120-124 *)
Definition format_pad (w : nat) (n : Z) : bytes :=
  if n <? 0 then 45 :: chars (pad_digits w (dec_digits (- n)))
  else chars (pad_digits w (dec_digits n)).

(** the test '0' <= c <= '9' of strconv.ParseUint, called at protocol/header.go:74 and server.go:155 *)
Definition is_digit_char (c : Z) : bool := (48 <=? c) && (c <=? 57).

(** strconv.ParseUint(s, 10, 64): at least one character, all digits, no
    overflow beyond 2^64-1 (header.go:74, server.go). *)
Fixpoint parse_acc (acc : Z) (s : bytes) : option Z :=
  match s with
  | [] => Some acc
  | c :: t => if is_digit_char c then
                let acc' := acc * 10 + (c - 48) in
                if acc' <? 18446744073709551616 then parse_acc acc' t else None
              else None
  end.
(** strconv.ParseUint, called at protocol/header.go:74 and server.go:155 *)
Definition parse_uint (s : bytes) : res Z :=
  match s with
  | [] => Err ErrParse
  | _ => match parse_acc 0 s with Some n => Ok n | None => Err ErrParse end
  end.

(** One packed byte: [(high << 4) | low] with [high := data[2i] - '0'],
    [low := data[2i+1] - '0'] in byte arithmetic (helpers.go:73-75). *)
Definition bcd_byte (hc lc : Z) : Z := Z.lor (u8 (Z.shiftl (u8 (hc - 48)) 4)) (u8 (lc - 48)).

(** helpers.go:72-76, two characters per byte (the length is even here). *)
Fixpoint bcd_pack (s : bytes) : bytes :=
  match s with
  | h :: l :: t => bcd_byte h l :: bcd_pack t
  | _ => []
  end.

(** stringToBCD(s) without size, helpers.go:65-80 *)
Definition string_to_bcd (s : bytes) : bytes :=
  bcd_pack (if Nat.odd (length s) then 48 :: s else s).

(** stringToBCD(s, size), helpers.go:82-89: keep the first [size] bytes, or
    right-align in [size] zero bytes. *)
Definition string_to_bcd_n (s : bytes) (size : nat) : bytes :=
  let bcd := string_to_bcd s in
  if (size <? length bcd)%nat then firstn size bcd
  else repeat 0 (size - length bcd) ++ bcd.

(** helpers.go:93-101: drop leading zero bytes. *)
Fixpoint strip0 (l : bytes) : bytes :=
  match l with
  | [] => []
  | b :: t => if b =? 0 then strip0 t else l
  end.

(** helpers.go:103-107: two characters per byte ([data[i]&0xf0>>4+'0'] groups
    as [((data[i] & 0xf0) >> 4) + '0']). *)
Fixpoint bcd_unpack (l : bytes) : bytes :=
  match l with
  | [] => []
  | b :: t => (Z.shiftr (Z.land b 240) 4 + 48) :: (Z.land b 15 + 48) :: bcd_unpack t
  end.

(** helpers.go:109-115: drop leading '0' characters unless that would drop everything. *)
Fixpoint strip_zero_chars (s : bytes) : option bytes :=
  match s with
  | [] => None
  | c :: t => if c =? 48 then strip_zero_chars t else Some s
  end.

(** bcdToString(data, ignorePadding), helpers.go:92-117 *)
Definition bcd_to_string_pad (ignore : bool) (data : bytes) : bytes :=
  let d := strip0 data in
  match d with
  | [] => []
  | _ => let buf := bcd_unpack d in
         if ignore then buf
         else match strip_zero_chars buf with Some s => s | None => buf end
  end.
(** bcdToString without the optional argument, protocol/helpers.go:92-117 *)
Definition bcd_to_string (data : bytes) : bytes := bcd_to_string_pad false data.

(** strconv.Atoi on a short all-or-nothing digit string: value 0 on error
    (the error is ignored at 0x0705:78-81). *)
Definition atoi_or_zero (s : bytes) : Z :=
  match parse_uint s with Ok n => n | _ => 0 end.
