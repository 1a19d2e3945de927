(** The flags of JT/T 808-2013 as bit numbers: status of a position report,
    area attributes, section attributes, door control. *)
From Verif Require Import Base Flags.

Definition bits_of (w : word) : Z := match w with WStatus => 32 | WArea => 16 | WSection | WDoor => 8 end.
Definition bit_no (w : word) (f : flag) : option Z :=
  match w, f with
  | WStatus, FAcc => Some 0 | WStatus, FPositioning => Some 1 | WStatus, FSouth => Some 2 | WStatus, FWest => Some 3
  | WArea, FEnter => Some 3 | WArea, FExit => Some 5 | WArea, FSouth => Some 6 | WArea, FWest => Some 7
  | WSection, FTimed => Some 0 | WSection, FLimited => Some 1 | WSection, FSouth => Some 2 | WSection, FWest => Some 3
  | WDoor, FLock => Some 0
  | _, _ => None
  end.
(** The flags the terminal reports and the platform only reads have no setter, those the platform only sets have no getter. *)
Definition settable (w : word) (f : flag) : bool :=
  match w, f with WStatus, (FAcc | FPositioning) => false | _, _ => match bit_no w f with Some _ => true | None => false end end.
Definition gettable (w : word) (f : flag) : bool :=
  match w, f with WArea, (FEnter | FExit) | WDoor, FLock => false | _, _ => match bit_no w f with Some _ => true | None => false end end.
(** What the calls say about a flag: the last one that names it *)
Definition said (w : word) (i : Z) (calls : list (flag * bool)) (before : bool) : bool :=
  fold_left (fun acc (c : flag * bool) =>
    if settable w (fst c) && match bit_no w (fst c) with Some j => j =? i | None => false end then snd c else acc) calls before.
