(** A body whose hemisphere words say something else than its coordinates. *)
From Verif Require Import Base Decimal EntTerm EntPlat Registry.

(** A coordinate on the side a flag says, as far from zero as before *)
Definition side (flag : bool) (d : decimal) : decimal := Dec (if flag then - Z.abs (dcoef d) else Z.abs (dcoef d)) (dexp d).

(** Locations, circles, rectangles and vertices with every coordinate on the side a word says *)
Definition face_0200 (x : t0200) (w : Z) : t0200 :=
  T0200 (p_alarm x) w (side (Z.testbit w 2) (p_lat x)) (side (Z.testbit w 3) (p_lng x)) (p_alt x) (p_speed x) (p_dir x) (p_time x) (p_extras x).
Definition face_circle (x : circle) (w : Z) : circle :=
  Circle (ci_id x) w (side (Z.testbit w 6) (ci_lat x)) (side (Z.testbit w 7) (ci_lng x)) (ci_radius x) (ci_lim x).
Definition face_rect (x : rect) (w : Z) : rect :=
  Rect (re_id x) w (side (Z.testbit w 6) (re_llat x)) (side (Z.testbit w 7) (re_llng x)) (side (Z.testbit w 6) (re_rlat x)) (side (Z.testbit w 7) (re_rlng x)) (re_lim x).
Definition face_vertex (w : Z) (v : vertex) : vertex := Vertex (side (Z.testbit w 6) (vx_lat v)) (side (Z.testbit w 7) (vx_lng v)).

(** The body with these words, all else as it was *)
Definition facing (e : entity) (ws : list Z) : entity :=
  match e with
  | E0200 x => E0200 (face_0200 x (nth 0 ws 0))
  | E0201 x => E0201 (T0201 (a0201_serial x) (face_0200 (a0201_loc x) (nth 0 ws 0)))
  | E0500 x => E0500 (T0201 (a0201_serial x) (face_0200 (a0201_loc x) (nth 0 ws 0)))
  | E8600 x => E8600 (T8600 (a8600_action x) (map (fun p => face_circle (fst p) (snd p)) (combine (a8600_items x) ws)))
  | E8602 x => E8602 (T8602 (a8602_action x) (map (fun p => face_rect (fst p) (snd p)) (combine (a8602_items x) ws)))
  | E8604 x => E8604 (T8604 (a8604_id x) (nth 0 ws 0) (a8604_lim x) (map (face_vertex (nth 0 ws 0)) (a8604_vs x)))
  | _ => e
  end.
