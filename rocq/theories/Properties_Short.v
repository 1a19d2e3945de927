(** Bodies refused for their length: C182. *)
From Verif Require Import Base LibBase Env EntTerm EntPlat Registry SpecShort ProofShort Demo.

(** C182. Decode answers with the error for invalid bodies exactly when the body has fewer bytes than its type asks for ... *)
Theorem C182_short env typ d : In typ registered -> typ <> 0x0704 ->
  (decode env typ d = Err PErrInvalidBody <-> zlen d < fewest typ).
Proof. exact (short_iff env typ d). Qed.
Print Assumptions C182_short.
(** ... and for a batch of positions also when the first item that cannot be read has fewer than 28 bytes. *)
Theorem C182_batch env d : decode env 0x0704 d = Err PErrInvalidBody <->
  zlen d < fewest 0x0704 \/
  exists hi lo typ rest items item, d = hi :: lo :: typ :: rest /\ zlen items < hi * 256 + lo /\ batch (S (length items)) rest (items ++ [item]) /\
    Forall (fun i => exists p k, decode env 0x0200 i = Ok (p, k)) items /\ zlen item < 28.
Proof. exact (short_0704 env d). Qed.
Print Assumptions C182_batch.
(** An answer to a photo command of three bytes ends early but is not too short; a batch with one item of two bytes. *)
Example C182_case : In 0x0805 registered /\ fewest 0x0805 = 3 /\ decode demo_env 0x0805 [0; 7; 0] = Err ErrUnexpectedEOF /\
  decode demo_env 0x0805 [0; 7] = Err PErrInvalidBody /\ batch 1 [0; 2; 9; 9; 1] ([] ++ [[9; 9]]) /\ decode demo_env 0x0704 [0; 1; 0; 0; 2; 9; 9; 1] = Err PErrInvalidBody.
Proof.
  split; [vm_compute; tauto|]. split; [reflexivity|]. split; [reflexivity|]. split; [reflexivity|]. split; [|reflexivity].
  exact (batch_cons 0 0 2 [9; 9] [1] [] eq_refl (batch_nil [1])).
Qed.
