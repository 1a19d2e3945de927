(** Bodies that are refused for their length. *)
From Verif Require Import Base.

(** The fewest bytes a body of each type may have; every body of the others has that many. *)
Definition fewest (typ : Z) : Z :=
  match typ with
  | 0x0001 => 5 | 0x0100 => 37 | 0x0102 => 1 | 0x0104 => 4 | 0x0107 => 48 | 0x0108 => 2
  | 0x0200 => 28 | 0x0201 => 30 | 0x0301 => 1 | 0x0302 => 3 | 0x0303 => 2 | 0x0500 => 30
  | 0x0700 => 3 | 0x0701 => 4 | 0x0702 => 34 | 0x0704 => 3 | 0x0705 => 7
  | 0x0800 => 8 | 0x0801 => 36 | 0x0802 => 4 | 0x0805 => 3 | 0x0900 => 1 | 0x0901 => 4 | 0x0A00 => 132
  | 0x8001 => 5 | 0x8003 => 3 | 0x8100 => 3 | 0x8103 => 4 | 0x8105 => 1 | 0x8106 => 1 | 0x8108 => 11
  | 0x8202 => 4 | 0x8203 => 4 | 0x8300 => 1 | 0x8301 => 2 | 0x8302 => 2 | 0x8303 => 2 | 0x8304 => 3
  | 0x8400 => 1 | 0x8401 => 1 | 0x8500 => 1 | 0x8600 => 20 | 0x8601 => 1 | 0x8602 => 24 | 0x8603 => 1
  | 0x8604 => 16 | 0x8605 => 1 | 0x8606 => 20 | 0x8607 => 1 | 0x8700 => 1 | 0x8701 => 1
  | 0x8800 => 4 | 0x8801 => 12 | 0x8802 => 15 | 0x8803 => 16 | 0x8804 => 5 | 0x8805 => 3 | 0x8900 => 1 | 0x8A00 => 132
  | _ => 0
  end.
(** The items of a batch of positions: each has its length in two bytes before it. [batch n d items]: [n] of them
    stand at the front of [d]. *)
Inductive batch : nat -> bytes -> list bytes -> Prop :=
| batch_nil d : batch 0 d []
| batch_cons n a b item d items : zlen item = a * 256 + b -> batch n d items -> batch (S n) (a :: b :: item ++ d) (item :: items).
