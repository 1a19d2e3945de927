(** time.Time, BCD time: protocol/helpers.go:119-138.
    Simplification: every time.Location is a fixed offset from UTC (no
    daylight-saving transitions). *)
From Verif Require Import Base Bcd.

(** A time.Time: seconds since the Unix epoch, nanoseconds, and the offset of
    its Location in seconds. *)
Record gotime := GoTime { t_sec : Z; t_nsec : Z; t_zone : Z }.

(** Day number (1970-01-01 = 0) of a civil date of the proleptic Gregorian
    calendar, as time.Date computes it. *)
Definition days_from_civil (y m d : Z) : Z :=
  let y' := if m <=? 2 then y - 1 else y in
  let era := y' / 400 in
  let yoe := y' mod 400 in
  let mp := (m + 9) mod 12 in
  let doy := (153 * mp + 2) / 5 + d - 1 in
  let doe := yoe * 365 + yoe / 4 - yoe / 100 + doy in
  era * 146097 + doe - 719468.

(** Civil date of a day number, as Time.Date computes it. *)
Definition civil_from_days (z : Z) : Z * Z * Z :=
  let z' := z + 719468 in
  let era := z' / 146097 in
  let doe := z' mod 146097 in
  let yoe := (doe - doe / 1460 + doe / 36524 - doe / 146096) / 365 in
  let doy := doe - (365 * yoe + yoe / 4 - yoe / 100) in
  let mp := (5 * doy + 2) / 153 in
  let d := doy - (153 * mp + 2) / 5 + 1 in
  let m := if mp <? 10 then mp + 3 else mp - 9 in
  (yoe + era * 400 + (if m <=? 2 then 1 else 0), m, d).

(** time.isLeap of the Go standard library, behind time.Date at protocol/helpers.go:127-137 *)
Definition is_leap (y : Z) : bool :=
  ((y mod 4 =? 0) && negb (y mod 100 =? 0)) || (y mod 400 =? 0).

(** time's daysIn(month, year) *)
Definition days_in (m y : Z) : Z :=
  if m =? 2 then (if is_leap y then 29 else 28)
  else if (m =? 4) || (m =? 6) || (m =? 9) || (m =? 11) then 30 else 31.

(** Broken-down local time of an instant at offset [off]. *)
Definition year_of (lsec : Z) : Z := fst (fst (civil_from_days (lsec / 86400))).
(** time.Time.Month, behind t.Format at protocol/helpers.go:120-124 *)
Definition month_of (lsec : Z) : Z := snd (fst (civil_from_days (lsec / 86400))).
(** time.Time.Day, same use *)
Definition day_of (lsec : Z) : Z := snd (civil_from_days (lsec / 86400)).
(** time.Time.Hour, same use *)
Definition hour_of (lsec : Z) : Z := (lsec mod 86400) / 3600.
(** time.Time.Minute, same use *)
Definition minute_of (lsec : Z) : Z := (lsec mod 3600) / 60.
(** time.Time.Second, same use *)
Definition second_of (lsec : Z) : Z := lsec mod 60.

(** t.Format("20060102") for local seconds [lsec] *)
Definition format_date (lsec : Z) : bytes :=
  format_pad 4 (year_of lsec) ++ format_pad 2 (month_of lsec) ++ format_pad 2 (day_of lsec).

(** t.Format("20060102150405") for local seconds [lsec] *)
Definition format_datetime (lsec : Z) : bytes :=
  format_date lsec ++
  format_pad 2 (hour_of lsec) ++ format_pad 2 (minute_of lsec) ++ format_pad 2 (second_of lsec).

(** toBCDTime, helpers.go:120-124: [time.Unix(t.Unix(), 0)] is in time.Local,
    whose offset is [tz]; the first two characters of the year are dropped. *)
Definition to_bcd_time (tz : Z) (t : gotime) : bytes :=
  string_to_bcd_n (skipn 2 (format_datetime (t_sec t + tz))) 6.

(** Value of a two- or four-character digit field; [None] if some character is no digit. *)
Fixpoint num_of (acc : Z) (s : bytes) : option Z :=
  match s with
  | [] => Some acc
  | c :: t => if is_digit_char c then num_of (acc * 10 + (c - 48)) t else None
  end.

(** time.ParseInLocation("20060102150405", s, time.Local) on text consisting of
    characters '0'..'?': succeeds iff [s] has exactly 14 characters, all digits,
    and the fields are in range.  (time/format.go; year: 4 digits, month, day,
    minute, second: 2 digits; with at least two more digits behind it the hour
    also takes 2 digits; out-of-range fields and trailing text are errors.) *)
Definition parse_datetime (tz : Z) (s : bytes) : res gotime :=
  if negb (zlen s =? 14) then Err ErrParse
  else match num_of 0 (firstn 4 s), num_of 0 (firstn 2 (skipn 4 s)),
             num_of 0 (firstn 2 (skipn 6 s)), num_of 0 (firstn 2 (skipn 8 s)),
             num_of 0 (firstn 2 (skipn 10 s)), num_of 0 (firstn 2 (skipn 12 s)) with
       | Some y, Some mo, Some d, Some h, Some mi, Some sec =>
         if (1 <=? mo) && (mo <=? 12) && (1 <=? d) && (d <=? days_in mo y)
            && (h <? 24) && (mi <? 60) && (sec <? 60)
         then Ok (GoTime (days_from_civil y mo d * 86400 + h * 3600 + mi * 60 + sec - tz) 0 tz)
         else Err ErrParse
       | _, _, _, _, _, _ => Err ErrParse
       end.

(** fromBCDTime, helpers.go:127-138: prefix "20" *)
Definition from_bcd_time (tz : Z) (bcd : bytes) : res gotime :=
  if negb (zlen bcd =? 6) then Err ErrInvalidBCDTime
  else parse_datetime tz (50 :: 48 :: bcd_to_string bcd).
