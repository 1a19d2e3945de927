(** A concrete environment, used by the examples that show the hypotheses of
    the theorems to be satisfiable: text is passed through unchanged (as GB18030 does
    for ASCII), UTC+8, a toy compressor and a toy cipher that satisfy the laws
    the theorems ask of compress/gzip and crypto/rsa. *)
From Verif Require Import Base Bcd GoTime Decimal Env.

Definition demo_env : Env := {|
  gb_enc := fun s => (s, false);
  gb_dec := fun s => (s, false);
  tz_off := 28800;
  f2u32 := fun _ => 0;
  gz_enc := fun d => 31 :: d;
  gz_dec := fun z => match z with 31 :: d => Some [(d, GzEOF)] | _ => None end;
  key_size := fun _ => 128;
  oaep_enc := fun _ _ m => if zlen m <=? 86 then Some (zlen m :: w_fixed m 127) else None;
  oaep_dec := fun _ c => match c with n :: m => if (zlen c =? 128) && (0 <=? n) && (n <=? 86) then Some (firstn (Z.to_nat n) m) else None | [] => None end;
|}.
