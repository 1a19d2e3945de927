(** Concrete messages for C171 and C172. *)
From Verif Require Import Base LibBase GoTime Env EntTerm EntPlat Registry Message SpecMsg Demo SpecRefuse ProofRefuse.

(** As the demonstration environment, but texts with the byte 255 cannot be written, key 3 has 32 bytes and key 4 encrypts nothing. *)
Definition strict_env : Env := {|
  gb_enc := fun s => (s, existsb (Z.eqb 255) s); gb_dec := gb_dec demo_env; tz_off := tz_off demo_env; f2u32 := f2u32 demo_env;
  gz_enc := gz_enc demo_env; gz_dec := gz_dec demo_env; key_size := fun k => if k =? 3 then 32 else 128;
  oaep_enc := fun k r m => if k =? 4 then None else oaep_enc demo_env k r m; oaep_dec := oaep_dec demo_env |}.
Definition note (b : body) : message := Message (Header 0 0 13800138000 7 None) b.
Definition refused_cases : list (option Z * message * goerr) :=
  [(None, note (BEnt (E0102 (T0102 [65; 255]))), ErrText);
   (None, note (BEnt (E8302 (T8302 0 [65] [Labelled 1 [66]; Labelled 2 [255]]))), ErrText);
   (None, note (BEnt (E0A00 (T0A00 (Some (65537, Some (2 ^ 1015)))))), ErrKey);
   (None, note (BEnt (E0801 (T0801 (T0800 1 0 0 0 0) (T0200 0 0 (Decimal.Dec 0 0) (Decimal.Dec 0 0) 0 0 0 (GoTime 0 0 0) []) (Some (Rdr [1] true))))), ErrOther);
   (Some 4, note (BEnt (E8001 (T8001 1 2 0))), ErrCrypt);
   (None, note (BEnt (E0900 (TData 1 (repeat 0 1023)))), ErrBodyTooLong);
   (Some 1, note (BEnt (E0900 (TData 1 (repeat 0 700)))), ErrBodyTooLong)].
Definition panic_cases : list (option Z * message) :=
  [(None, note BNil);
   (None, note (BEnt (E8103 (T8103 [Some (Param 1 [2]); None]))));
   (Some 3, note (BEnt (E8001 (T8001 1 2 0))));
   (None, Message (Header 0 8192 1 7 None) (BEnt (E8001 (T8001 1 2 0))))].
Lemma refused_all : Forall (fun x => msg_encode strict_env (fst (fst x)) 0 (snd (fst x)) = Err (snd x) /\ refused strict_env (fst (fst x)) 0 (snd (fst x)) (snd x)) refused_cases.
Proof.
  assert (G : forall x, msg_encode strict_env (fst (fst x)) 0 (snd (fst x)) = Err (snd x) ->
    msg_encode strict_env (fst (fst x)) 0 (snd (fst x)) = Err (snd x) /\ refused strict_env (fst (fst x)) 0 (snd (fst x)) (snd x)).
  { intros x H. split; [exact H|]. apply message_refused. exact H. }
  unfold refused_cases. repeat (apply Forall_cons; [apply G; vm_compute; reflexivity|]). apply Forall_nil.
Qed.
Lemma panics_all : Forall (fun x => msg_encode strict_env (fst x) 0 (snd x) = Panic /\ panics strict_env (fst x) 0 (snd x)) panic_cases.
Proof.
  assert (G : forall x, msg_encode strict_env (fst x) 0 (snd x) = Panic -> msg_encode strict_env (fst x) 0 (snd x) = Panic /\ panics strict_env (fst x) 0 (snd x)).
  { intros x H. split; [exact H|]. apply message_panics. exact H. }
  unfold panic_cases. repeat (apply Forall_cons; [apply G; vm_compute; reflexivity|]). apply Forall_nil.
Qed.
(** A message of 100 bytes for key 1: two blocks of 128 bytes. *)
Definition secret_msg : message := note (BEnt (E0900 (TData 1 (repeat 7 99)))).
Lemma secret_bytes : exists b, body_bytes strict_env (Some 1) 0 secret_msg b /\ zlen b = 256.
Proof.
  exists (86 :: w_fixed (1 :: repeat 7 85) 127 ++ 14 :: w_fixed (repeat 7 14) 127). split; [|vm_compute; reflexivity].
  eapply (BbSecret _ _ _ _ _ (1 :: repeat 7 99) 1); [reflexivity|reflexivity|reflexivity|reflexivity|].
  change (1 :: repeat 7 99) with ((1 :: repeat 7 85) ++ repeat 7 14).
  change (86 :: w_fixed (1 :: repeat 7 85) 127 ++ 14 :: w_fixed (repeat 7 14) 127) with ((86 :: w_fixed (1 :: repeat 7 85) 127) ++ 14 :: w_fixed (repeat 7 14) 127).
  apply EcMore; [reflexivity|reflexivity|]. apply EcLast; [discriminate|reflexivity|reflexivity].
Qed.
