(** Local clocks whose offset from UTC changes. *)
From Coq Require Import Sorted.
From Verif Require Import Base GoTime Zones.

(** Changes in order of time; offsets of at most a day *)
Definition loc_ok (loc : location) : Prop :=
  StronglySorted (fun a b => fst a < fst b) (lo_changes loc) /\ -86400 <= lo_first loc <= 86400 /\ Forall (fun c => -86400 <= snd c <= 86400) (lo_changes loc).
(** [o] is the offset at the instant [u]: that of the last change not after [u]. *)
Definition in_force (loc : location) (u o : Z) : Prop :=
  (o = lo_first loc /\ forall c, In c (lo_changes loc) -> u < fst c) \/
  exists pre w post, lo_changes loc = pre ++ (w, o) :: post /\ w <= u /\ forall c, In c post -> u < fst c.
(** At the instant [u] the clock reads [l] (as seconds in UTC). *)
Definition clock (loc : location) (u l : Z) : Prop := exists o, in_force loc u o /\ l = u + o.
(** At most one change within a day of a reading *)
Definition quiet (loc : location) (l : Z) : Prop :=
  forall c c', In c (lo_changes loc) -> In c' (lo_changes loc) -> l - 86400 <= fst c <= l + 86400 -> l - 86400 <= fst c' <= l + 86400 -> c = c'.
(** The clock goes forward by [n] seconds at the instant [w]. *)
Definition forward (loc : location) (w n : Z) : Prop :=
  exists a b, in_force loc (w - 1) a /\ in_force loc w b /\ n = b - a /\ 0 < n.
