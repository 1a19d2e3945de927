(** The methods with which an application reads and sets the flags of status and
    attribute words: t808_0x0200.go:36-73, t808_0x8500.go:10-15,
    t808_0x8600.go:10-46, t808_0x8606.go:23-70.  The encoders and decoders of the
    bodies use some of them as well (EntTerm.v, EntPlat.v).

    Simplification: the enumerations LatitudeType and LongitudeType are booleans,
    true for south and west; a method with a pointer receiver returns the new value. *)
From Verif Require Import Base Bits.

(** T808_0x0200_Status.GetAccState, t808_0x0200.go:40-42 *)
Definition status_acc (s : Z) : res bool := get_bit 32 s 0.
(** T808_0x0200_Status.Positioning, t808_0x0200.go:45-47 *)
Definition status_positioning (s : Z) : res bool := get_bit 32 s 1.
(** T808_0x0200_Status.SetSouthLatitude, t808_0x0200.go:50-52 *)
Definition status_set_south (s : Z) (b : bool) : res Z := set_bit 32 s 2 b.
(** T808_0x0200_Status.SetWestLongitude, t808_0x0200.go:55-57 *)
Definition status_set_west (s : Z) (b : bool) : res Z := set_bit 32 s 3 b.
(** T808_0x0200_Status.GetLatitudeType, t808_0x0200.go:60-65 *)
Definition status_south (s : Z) : res bool := do b <- get_bit 32 s 2 ; Ok (if b then true else false).
(** T808_0x0200_Status.GetLongitudeType, t808_0x0200.go:68-73 *)
Definition status_west (s : Z) : res bool := do b <- get_bit 32 s 3 ; Ok (if b then true else false).

(** AreaAttribute.SetSouthLatitude, t808_0x8600.go:13-15 *)
Definition area_set_south (a : Z) (b : bool) : res Z := set_bit 16 a 6 b.
(** AreaAttribute.SetWestLongitude, t808_0x8600.go:18-20 *)
Definition area_set_west (a : Z) (b : bool) : res Z := set_bit 16 a 7 b.
(** AreaAttribute.GetLatitudeType, t808_0x8600.go:23-28 *)
Definition area_south (a : Z) : res bool := do b <- get_bit 16 a 6 ; Ok (if b then true else false).
(** AreaAttribute.GetLongitudeType, t808_0x8600.go:31-36: the constants of the latitude types, which have the same values *)
Definition area_west (a : Z) : res bool := do b <- get_bit 16 a 7 ; Ok (if b then true else false).
(** AreaAttribute.SetExitAlarm, t808_0x8600.go:39-41 *)
Definition area_set_exit (a : Z) (b : bool) : res Z := set_bit 16 a 5 b.
(** AreaAttribute.SetEnterAlarm, t808_0x8600.go:44-46 *)
Definition area_set_enter (a : Z) (b : bool) : res Z := set_bit 16 a 3 b.

(** T808_0x8606_SectionAttribute.HasTimeLimit, t808_0x8606.go:27-29 *)
Definition section_timed (a : Z) : res bool := get_bit 8 a 0.
(** T808_0x8606_SectionAttribute.HasSpeedLimit, t808_0x8606.go:32-34 *)
Definition section_limited (a : Z) : res bool := get_bit 8 a 1.
(** T808_0x8606_SectionAttribute.SetTimeLimit, t808_0x8606.go:37-39 *)
Definition section_set_timed (a : Z) (b : bool) : res Z := set_bit 8 a 0 b.
(** T808_0x8606_SectionAttribute.SetSpeedLimit, t808_0x8606.go:42-44 *)
Definition section_set_limited (a : Z) (b : bool) : res Z := set_bit 8 a 1 b.
(** T808_0x8606_SectionAttribute.SetSouthLatitude, t808_0x8606.go:47-49 *)
Definition section_set_south (a : Z) (b : bool) : res Z := set_bit 8 a 2 b.
(** T808_0x8606_SectionAttribute.SetWestLongitude, t808_0x8606.go:52-54 *)
Definition section_set_west (a : Z) (b : bool) : res Z := set_bit 8 a 3 b.
(** T808_0x8606_SectionAttribute.GetLatitudeType, t808_0x8606.go:57-62 *)
Definition section_south (a : Z) : res bool := do b <- get_bit 8 a 2 ; Ok (if b then true else false).
(** T808_0x8606_SectionAttribute.GetLongitudeType, t808_0x8606.go:65-70 *)
Definition section_west (a : Z) : res bool := do b <- get_bit 8 a 3 ; Ok (if b then true else false).

(** T808_0x8500_Flag.SetLock, t808_0x8500.go:13-15 *)
Definition door_set_lock (f : Z) (b : bool) : res Z := set_bit 8 f 0 b.

(** The words with flags: t808_0x0200.go:36, t808_0x8600.go:10, t808_0x8606.go:23, t808_0x8500.go:10 *)
Inductive word := WStatus | WArea | WSection | WDoor.
(** The flags that have a method, same places *)
Inductive flag := FAcc | FPositioning | FSouth | FWest | FExit | FEnter | FTimed | FLimited | FLock.

(** The setters: methods as above; [None]: there is none *)
Definition setter (w : word) (f : flag) : option (Z -> bool -> res Z) :=
  match w, f with
  | WStatus, FSouth => Some status_set_south
  | WStatus, FWest => Some status_set_west
  | WArea, FSouth => Some area_set_south
  | WArea, FWest => Some area_set_west
  | WArea, FExit => Some area_set_exit
  | WArea, FEnter => Some area_set_enter
  | WSection, FTimed => Some section_set_timed
  | WSection, FLimited => Some section_set_limited
  | WSection, FSouth => Some section_set_south
  | WSection, FWest => Some section_set_west
  | WDoor, FLock => Some door_set_lock
  | _, _ => None
  end.
(** The getters: methods as above; [None]: there is none *)
Definition getter (w : word) (f : flag) : option (Z -> res bool) :=
  match w, f with
  | WStatus, FAcc => Some status_acc
  | WStatus, FPositioning => Some status_positioning
  | WStatus, FSouth => Some status_south
  | WStatus, FWest => Some status_west
  | WArea, FSouth => Some area_south
  | WArea, FWest => Some area_west
  | WSection, FTimed => Some section_timed
  | WSection, FLimited => Some section_limited
  | WSection, FSouth => Some section_south
  | WSection, FWest => Some section_west
  | _, _ => None
  end.

(** A sequence of calls of setters of one word, methods as above *)
Fixpoint set_all (w : word) (v : Z) (calls : list (flag * bool)) : res Z :=
  match calls with
  | [] => Ok v
  | (f, b) :: t => match setter w f with
                   | None => set_all w v t
                   | Some s => do v' <- s v b ; set_all w v' t
                   end
  end.
