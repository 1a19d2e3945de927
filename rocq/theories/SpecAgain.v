(** Bodies of which one form only is accepted: no text, no padding, no extra items, no compression. *)
From Verif Require Import Base Env EntTerm EntPlat Registry.

(** An RSA modulus must fill its 128 bytes: the encoder drops leading zero bytes. *)
Definition full_key (k : t0a00) : Prop :=
  match a0a00_key k with Some (_, Some n) => 2 ^ 1016 <= n | _ => False end.
Definition one_form (e : entity) : Prop :=
  match e with
  | E0001 _ | E0002 | E0003 | E0104 _ | E0108 _ | E0301 _ | E0302 _ | E0303 _ | E0700 _ | E0701 _ | E0800 _ | E0801 _ | E0802 _
  | E0805 _ | E0900 _ | E8001 _ | E8003 _ | E8103 _ | E8104 | E8106 _ | E8107 | E8201 | E8202 _ | E8203 _ | E8500 _ | E8600 _
  | E8601 _ | E8602 _ | E8603 _ | E8604 _ | E8605 _ | E8606 _ | E8607 _ | E8700 _ | E8701 _ | E8702 | E8801 _ | E8802 _ | E8803 _
  | E8804 _ | E8805 _ | E8900 _ => True
  | E0A00 k | E8A00 k => full_key k
  | _ => False
  end.
