(** Lists in bodies: how many elements, and where their number is written. *)
From Verif Require Import Base Env EntTerm EntPlat Registry SpecSha.

(** the elements of the list in a body *)
Definition list_size (e : entity) : Z :=
  match e with
  | E0104 x => zlen (a0104_params x) | E0704 x => zlen (a0704_items x) | E0705 x => zlen (a0705_items x) | E0802 x => zlen (a0802_items x)
  | E0805 x => zlen (a0805_ids x) | E8103 x => zlen (a8103_params x) | E8106 x | E8601 x | E8603 x | E8605 x => zlen (ti_ids x)
  | E8600 x => zlen (a8600_items x) | E8602 x => zlen (a8602_items x) | E8604 x => zlen (a8604_vs x) | _ => 0
  end.
(** the place and the width of the number of elements; in a polygon the speed limit and the times come first if the lowest bit of its attributes is set *)
Definition count_field (typ : Z) (data : bytes) : option (Z * Z) :=
  match typ with
  | 0x0104 => Some (2, 1) | 0x0704 => Some (0, 2) | 0x0705 => Some (0, 2) | 0x0802 => Some (2, 2) | 0x0805 => Some (3, 2)
  | 0x8103 | 0x8106 | 0x8601 | 0x8603 | 0x8605 => Some (0, 1) | 0x8600 | 0x8602 => Some (1, 1)
  | 0x8604 => Some (if Z.odd (nth 5 data 0) then 21 else 6, 2) | _ => None
  end.
(** the bytes an element takes at least *)
Definition element_least (typ : Z) : Z :=
  match typ with
  | 0x0104 | 0x8103 => 5 | 0x0704 => 30 | 0x0705 => 12 | 0x0802 => 35 | 0x8600 => 18 | 0x8602 => 22 | 0x8604 => 8 | _ => 4
  end.
