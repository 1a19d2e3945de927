(** github.com/shopspring/decimal as used by the repository: Mul, IntPart,
    Div, Sub, Truncate, Cmp.  A Decimal is coef * 10^exp.  The limits of the
    int32 exponent are not modelled. *)
From Verif Require Import Base.

(** shopspring/decimal.Decimal: coefficient and exponent; the type of the latitudes and longitudes, e.g. protocol/t808_0x0200.go *)
Record decimal := Dec { dcoef : Z; dexp : Z }.

(** Decimal.rescale: multiply, or divide truncating toward zero. *)
Definition rescale (d : decimal) (e : Z) : decimal :=
  if dexp d =? e then d
  else if dcoef d =? 0 then Dec 0 e
  else if dexp d <? e then Dec (Z.quot (dcoef d) (10 ^ (e - dexp d))) e
  else Dec (dcoef d * 10 ^ (dexp d - e)) e.

(** Decimal.Mul *)
Definition dmul (a b : decimal) : decimal := Dec (dcoef a * dcoef b) (dexp a + dexp b).

(** big.Int.Int64: low 64 bits, two's complement *)
Definition int64 (n : Z) : Z := (n + 9223372036854775808) mod 18446744073709551616 - 9223372036854775808.

(** Decimal.IntPart *)
Definition int_part (d : decimal) : Z := int64 (dcoef (rescale d 0)).

(** Decimal.Sub *)
Definition dsub (a b : decimal) : decimal :=
  let e := Z.min (dexp a) (dexp b) in
  Dec (dcoef (rescale a e) - dcoef (rescale b e)) e.

(** Decimal.Cmp(x) < 0 *)
Definition dlt (a b : decimal) : bool :=
  let e := Z.min (dexp a) (dexp b) in
  dcoef (rescale a e) <? dcoef (rescale b e).

(** Decimal.Truncate(precision) *)
Definition truncate (d : decimal) (p : Z) : decimal :=
  if (0 <=? p) && (dexp d <? - p) then rescale d (- p) else d.

(** Decimal.Abs *)
Definition dabs (d : decimal) : decimal := Dec (Z.abs (dcoef d)) (dexp d).

(** Decimal.Add *)
Definition dadd (a b : decimal) : decimal :=
  let e := Z.min (dexp a) (dexp b) in
  Dec (dcoef (rescale a e) + dcoef (rescale b e)) e.

(** Decimal.Div = DivRound(d2, 16) over QuoRem(d2, 16); dividing by zero panics. *)
Definition ddiv (a b : decimal) : res decimal :=
  if dcoef b =? 0 then Panic else
  let scale := -16 in
  let e := dexp a - dexp b - scale in
  let aa := if e <? 0 then dcoef a else dcoef a * 10 ^ e in
  let bb := if e <? 0 then dcoef b * 10 ^ (- e) else dcoef b in
  let scalerest := if e <? 0 then dexp a else scale + dexp b in
  let q := Dec (Z.quot aa bb) scale in
  let r := Dec (Z.rem aa bb) scalerest in
  let r2 := Dec (Z.abs (dcoef r) * 2) (dexp r + 16) in
  if dlt r2 (dabs b) then Ok q
  else if Z.sgn (dcoef a) * Z.sgn (dcoef b) <? 0 then Ok (dsub q (Dec 1 (-16)))
  else Ok (dadd q (Dec 1 (-16))).

(** decimal.NewFromFloat(1000000): shortest decimal is 1e6. *)
Definition dec_million : decimal := Dec 1 6.
(** decimal.Zero = New(0, 1) *)
Definition dec_zero : decimal := Dec 0 1.
(** decimal.NewFromInt *)
Definition dec_int (n : Z) : decimal := Dec n 0.

(** getGeoPoint, protocol/helpers.go:141-152, one coordinate: divide by 10^6,
    negate for south/west, truncate to 6 places. *)
Definition geo_coord (n : Z) (neg : bool) : res decimal :=
  do f <- ddiv (dec_int n) dec_million ;
  Ok (truncate (if neg then dsub dec_zero f else f) 6).

(** getGeoPoint, protocol/helpers.go:141-152 *)
Definition get_geo_point (lat : Z) (south : bool) (lng : Z) (west : bool) : res (decimal * decimal) :=
  do a <- geo_coord lat south ;
  do b <- geo_coord lng west ;
  Ok (a, b).

(** [x.Mul(decimal.NewFromFloat(1000000)).IntPart()]: t808_0x0200.go:111-116 and others *)
Definition micro (d : decimal) : Z := int_part (dmul d dec_million).
