(** Comparisons a timer may make. *)
From Verif Require Import Base Timer.

(** All the comparisons of a run *)
Fixpoint total (out : list (Z * list Z)) : Z := match out with [] => 0 | (c, _) :: r => c + total r end.
(** The Updates among the calls *)
Fixpoint updates (ops : list uop) : Z := match ops with [] => 0 | UUpdate _ _ :: r => 1 + updates r | _ :: r => updates r end.
(** What one call or tick may cost when at most [d] keys are ever used: [L] is the height of a tree of [d] entries. *)
Definition allowed (L : Z) (o : uop) (r : Z * list Z) : Prop :=
  0 <= fst r <= match o with UUpdate _ _ => 3 * L | URemove _ => 2 * L | USet _ => 0 | UTick _ => 2 * L * zlen (snd r) end.
