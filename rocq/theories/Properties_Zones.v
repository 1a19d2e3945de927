(** Properties of BCD times and dates where the local clock is put forward and back. *)
From Coq Require Import Sorted.
From Verif Require Import Base Bcd GoTime Zones SpecZones ProofZones2.

(** C138 is refuted: in a location with daylight saving time a time that is encoded and
    decoded again is another one (the hour that the clock shows twice: New York,
    5 November 2023, 01:30 standard time), with either library. *)
Theorem C138_refuted v : exists loc t t', loc_ok loc /\ quiet loc (t_sec t + t_zone t) /\ t_nsec t = 0 /\ in_force loc (t_sec t) (t_zone t) /\
  1262304000 <= t_sec t + t_zone t < 4102444800 /\ from_bcd_loc v loc (to_bcd_loc loc t) = Ok t' /\ t_sec t' = t_sec t - 3600.
Proof. exact (again_refuted v). Qed.
Print Assumptions C138_refuted.
(** And a time that is decoded and encoded again is another text (the hour that the
    clock leaves out: New York, 12 March 2023, 02:30). *)
Theorem C138_gap_refuted v : exists loc b t, loc_ok loc /\ bytes_ok b /\ from_bcd_loc v loc b = Ok t /\ to_bcd_loc loc t <> b.
Proof. exact (gap_refuted v). Qed.
Print Assumptions C138_gap_refuted.

(** C139. A time whose reading the clock shows only once survives encoding and
    decoding, up to its fraction of a second; readings are taken within a day of at most one change. *)
Theorem C139_roundtrip v loc t l : loc_ok loc -> quiet loc l -> clock loc (t_sec t) l -> (forall u, clock loc u l -> u = t_sec t) -> 1262304000 <= l < 4102444800 ->
  from_bcd_loc v loc (to_bcd_loc loc t) = Ok (GoTime (t_sec t) 0 (l - t_sec t)).
Proof. exact (loc_roundtrip v loc t l). Qed.
Print Assumptions C139_roundtrip.
(** A decoded time: the clock shows the reading [l] of the text then, and it encodes to
    the same bytes, if the clock shows [l] at all; otherwise the clock is ahead or behind by what it was put forward. *)
Theorem C139_reads v loc b t : bytes_ok b -> from_bcd_loc v loc b = Ok t -> exists l, from_bcd_time 0 b = Ok (GoTime l 0 0) /\
  (loc_ok loc -> quiet loc l -> (exists u, clock loc u l) -> clock loc (t_sec t) l /\ to_bcd_loc loc t = b) /\
  (loc_ok loc -> quiet loc l -> ~ (exists u, clock loc u l) -> (exists w n, forward loc w n /\ (clock loc (t_sec t) (l + n) \/ clock loc (t_sec t) (l - n)))).
Proof. exact (loc_reads v loc b t). Qed.
Print Assumptions C139_reads.
Example C139_case v : loc_ok new_york /\ quiet new_york 1678590000 /\ clock new_york 1678604400 1678590000 /\ (forall u, clock new_york u 1678590000 -> u = 1678604400) /\
  to_bcd_loc new_york (GoTime 1678604400 0 (-14400)) = [0x23; 0x03; 0x12; 0x03; 0x00; 0x00] /\
  from_bcd_loc v new_york [0x23; 0x03; 0x12; 0x03; 0x00; 0x00] = Ok (GoTime 1678604400 0 (-14400)).
Proof. exact (ny_case v). Qed.
Example C139_gap_case v : loc_ok new_york /\ quiet new_york 1678588200 /\ ~ (exists u, clock new_york u 1678588200) /\ forward new_york 1678604400 3600 /\
  from_bcd_loc v new_york [0x23; 0x03; 0x12; 0x02; 0x30; 0x00] = Ok (GoTime 1678602600 0 (-18000)) /\ clock new_york 1678602600 (1678588200 - 3600).
Proof. exact (ny_gap v). Qed.

(** C140. Where one offset is in force from two days before 2010 to two days after 2099,
    times are what the model of a fixed offset says, in both directions. *)
Theorem C140_fixed v loc tz : loc_ok loc -> (forall u, 1262131200 <= u < 4102617600 -> in_force loc u tz) ->
  (forall b, bytes_ok b -> from_bcd_loc v loc b = from_bcd_time tz b) /\ (forall t, 1262131200 <= t_sec t < 4102617600 -> to_bcd_loc loc t = to_bcd_time tz t).
Proof. exact (loc_fixed v loc tz). Qed.
Print Assumptions C140_fixed.
Example C140_case : loc_ok shanghai /\ forall u, 1262131200 <= u < 4102617600 -> in_force shanghai u 28800.
Proof. exact sh_case. Qed.

(** C141 is refuted: an expiry date that is decoded is encoded as the day before where
    the clock is put forward at midnight (Sao Paulo, 4 November 2018). *)
Theorem C141_refuted v : exists loc b t, loc_ok loc /\ bytes_ok b /\ expiry_read v loc b = Ok t /\ b = [0x20; 0x18; 0x11; 0x04] /\ expiry_write t = [0x20; 0x18; 0x11; 0x03].
Proof. exact (expiry_refuted v). Qed.
Print Assumptions C141_refuted.
(** C142. Where the clock shows the midnight that begins the day, an expiry date keeps
    its bytes and is a midnight of that clock. *)
Theorem C142_dates v loc b t : loc_ok loc -> bytes_ok b -> zlen b = 4 -> expiry_read v loc b = Ok t -> exists l, l mod 86400 = 0 /\
  parse_datetime 0 (bcd_to_string b ++ repeat 48 6) = Ok (GoTime l 0 0) /\ (quiet loc l -> (exists u, clock loc u l) -> clock loc (t_sec t) l /\ expiry_write t = b).
Proof. exact (expiry_keeps v loc b t). Qed.
Print Assumptions C142_dates.
(** And every date of the years 1000 to 9999 is read back. *)
Theorem C142_all v loc l : loc_ok loc -> quiet loc l -> (exists u, clock loc u l) -> 1000 <= year_of l < 10000 -> l mod 86400 = 0 ->
  exists t, expiry_read v loc (string_to_bcd_n (format_date l) 4) = Ok t /\ clock loc (t_sec t) l /\ expiry_write t = string_to_bcd_n (format_date l) 4.
Proof. exact (expiry_same v loc l). Qed.
Print Assumptions C142_all.
Example C142_case v : loc_ok sao_paulo /\ quiet sao_paulo 1541376000 /\ clock sao_paulo 1541383200 1541376000 /\
  expiry_read v sao_paulo [0x20; 0x18; 0x11; 0x05] = Ok (GoTime 1541383200 0 (-7200)).
Proof. exact (sp_case v). Qed.
