(** What a coordinate becomes on the wire, independently of the code. *)
From Verif Require Import Base GoTime Decimal Env.

(** The coordinate coef * 10^exp in millionths of a degree, truncated toward zero. *)
Definition trunc6 (d : decimal) : Z :=
  if 0 <=? dexp d + 6 then dcoef d * 10 ^ (dexp d + 6)
  else Z.quot (dcoef d) (10 ^ (- (dexp d + 6))).

(** Coordinates the 32-bit field can hold: below 4294.967296 degrees. *)
Definition coord_ok (d : decimal) : Prop := Z.abs (trunc6 d) < 4294967296.

(** The coordinate truncated to six decimals. *)
Definition coord6 (d : decimal) : decimal := Dec (trunc6 d) (-6).

(** BCD times: local years 2010 .. 2099. *)
Definition time_ok (env : Env) (t : gotime) : Prop :=
  1262304000 <= t_sec t + tz_off env < 4102444800.
(** The same second in the local zone. *)
Definition time_sent (env : Env) (t : gotime) : gotime := GoTime (t_sec t) 0 (tz_off env).

(** The coordinate is below zero on the wire. *)
Definition neg6 (d : decimal) : bool := trunc6 d <? 0.
(** The hemisphere flag agrees with the coordinate (zero is in both hemispheres). *)
Definition sign_ok (flag : bool) (d : decimal) : Prop :=
  if flag then trunc6 d <= 0 else 0 <= trunc6 d.
(** [s] with bit [i] set if [b]. *)
Definition mark (s i : Z) (b : bool) : Z := if b then Z.setbit s i else s.
