(** BCD times in a location whose offset from UTC changes (daylight saving time):
    protocol/helpers.go:119-138 and t808_0x0702.go:82, 138-147.  GoTime.v has one
    fixed offset.

    Simplification: a location is the offset before its first change and the list
    of its changes; rules for the time after the last entry of a zone file are
    taken as written out in the list. *)
From Verif Require Import Base Bcd GoTime.

(** A time.Location: [lo_changes] lists the instants (Unix seconds) from which on
    another offset holds.  Behind time.Local at protocol/helpers.go:121, 132. *)
Record location := Loc { lo_first : Z; lo_changes : list (Z * Z) }.

(** Location.lookup of the Go library, behind time.Date and Time.Format at
    protocol/helpers.go:122, 131: the offset in force and the instants from which and up to which it is *)
Fixpoint look (off : Z) (start : option Z) (changes : list (Z * Z)) (sec : Z) : Z * option Z * option Z :=
  match changes with
  | [] => (off, start, None)
  | (w, o) :: t => if sec <? w then (off, start, Some w) else look o (Some w) t sec
  end.
(** same *)
Definition lookup (loc : location) (sec : Z) : Z * option Z * option Z := look (lo_first loc) None (lo_changes loc) sec.
(** The offset in force at an instant, same *)
Definition offset_at (loc : location) (sec : Z) : Z := fst (fst (lookup loc sec)).

(** How time.Date corrects its first guess: the library of Go 1.13, which go.mod
    names, takes the neighbouring offset; later ones (from 1.17 on) look the guess up. *)
Inductive go_version := GoOld | GoNew.

(** time.Date, behind time.ParseInLocation at protocol/helpers.go:131-132: the
    instant for a reading of the local clock, given as the seconds it would be in UTC *)
Definition date_in (v : go_version) (loc : location) (unix : Z) : Z :=
  let '(off, start, stop) := lookup loc unix in
  if off =? 0 then unix
  else
    let utc := unix - off in
    let early := match start with Some s => utc <? s | None => false end in
    let late := match stop with Some e => utc >=? e | None => false end in
    match v with
    | GoOld =>
        if early then unix - offset_at loc (match start with Some s => s - 1 | None => utc end)
        else if late then unix - offset_at loc (match stop with Some e => e | None => utc end)
        else utc
    | GoNew => if early || late then unix - offset_at loc utc else utc
    end.

(** time.ParseInLocation("20060102150405", s, time.Local) *)
Definition parse_in (v : go_version) (loc : location) (s : bytes) : res gotime :=
  do t <- parse_datetime 0 s ;
  let u := date_in v loc (t_sec t) in
  Ok (GoTime u 0 (offset_at loc u)).

(** toBCDTime, helpers.go:120-124: the time in time.Local *)
Definition to_bcd_loc (loc : location) (t : gotime) : bytes :=
  string_to_bcd_n (skipn 2 (format_datetime (t_sec t + offset_at loc (t_sec t)))) 6.
(** fromBCDTime, helpers.go:127-138 *)
Definition from_bcd_loc (v : go_version) (loc : location) (bcd : bytes) : res gotime :=
  if negb (zlen bcd =? 6) then Err ErrInvalidBCDTime
  else parse_in v loc (50 :: 48 :: bcd_to_string bcd).

(** The expiry date of 0x0702 as it is written, t808_0x0702.go:82, in the location of the time itself *)
Definition expiry_write (t : gotime) : bytes := string_to_bcd_n (format_date (t_sec t + t_zone t)) 4.
(** and as it is read, t808_0x0702.go:138-147 *)
Definition expiry_read (v : go_version) (loc : location) (bcd : bytes) : res gotime :=
  parse_in v loc (bcd_to_string bcd ++ repeat 48 6).
