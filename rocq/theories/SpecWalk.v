(** The entries visited while uploads are looked for, counted from the packets alone. *)
From Verif Require Import Base Multipart SpecMulti SpecStock.

(** Keys of a terminal *)
Definition part_of (icc : Z) (k : Z * Z * Z * Z) : bool := let '(i, _, _, _) := k in i =? icc.
Definition full_of (icc : Z) (k : Z * Z * Z) : bool := let '(i, _, _) := k in i =? icc.
(** The directory of a terminal, the parts ever written for it and the uploads ever merged *)
Definition held (ops : list mop) (icc : Z) : Z :=
  1 + zlen (filter (part_of icc) (nodup part_dec (part_keys ops))) + zlen (filter (full_of icc) (nodup full_dec (full_keys ops))).
(** All parts have been written, as a test *)
Definition complete_now (ops : list mop) (m : mpf) : bool :=
  forallb (fun i => match written ops m i with Some _ => true | None => false end) (upto (mp_sum m)).
(** The calls made for packets after those of [h]: each is written, and merged if it is the last and all are there *)
Fixpoint calls_from (h : list mop) (ps : list (mpf * Z * bytes)) : list mop :=
  match ps with
  | [] => []
  | (m, s, d) :: t =>
      let c := MWrite m s d :: (if (s =? mp_sum m) && complete_now (h ++ [MWrite m s d]) m then [MMerge m] else []) in
      c ++ calls_from (h ++ c) t
  end.
(** A last packet costs what is held, and as much again if all are there. *)
Fixpoint cost_from (h : list mop) (ps : list (mpf * Z * bytes)) : Z :=
  match ps with
  | [] => 0
  | (m, s, d) :: t =>
      let h1 := h ++ [MWrite m s d] in
      let full := complete_now h1 m in
      (if s =? mp_sum m then if full then 2 * held h1 (mp_icc m) else held h1 (mp_icc m) else 0) +
      cost_from (h1 ++ (if (s =? mp_sum m) && full then [MMerge m] else [])) t
  end.
(** A packet in the range of the Go types *)
Definition packet_fits (p : mpf * Z * bytes) : Prop := let '(m, s, _) := p in mpf_ok m /\ is_u16 s.
