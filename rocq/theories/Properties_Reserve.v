(** Memory reserved for lists: C192, C193. *)
From Verif Require Import Base LibBase Env EntTerm EntPlat Registry Reserve SpecSha SpecReserve ProofReserve Demo.

(** C192. "A body makes its decoder reserve room for no more elements than the body can hold." It does not hold: three bytes
    reserve room for 65535 position reports, and are then refused. *)
Theorem C192_refuted : exists env typ data e, bytes_ok data /\ zlen data = 3 /\ decode env typ data = Err e /\ reserved env typ data = 65535 /\
  ~ element_least typ * reserved env typ data <= zlen data.
Proof.
  exists demo_env, 0x0704, [255; 255; 0], ErrUnexpectedEOF. split; [repeat constructor; lia|]. split; [reflexivity|].
  split; [exact (proj1 (batch_of_nothing demo_env))|]. rewrite (proj2 (batch_of_nothing demo_env)). split; [reflexivity|]. intros H. apply H. reflexivity.
Qed.
Print Assumptions C192_refuted.
(** C193. Bodies that are accepted reserve room for exactly the elements they hold, and hold all of them. *)
Theorem C193_accepted env typ data e n : bytes_ok data -> decode env typ data = Ok (e, n) ->
  reserved env typ data = list_size e /\ element_least typ * reserved env typ data <= zlen data.
Proof. exact (reserved_accepted env typ data e n). Qed.
Print Assumptions C193_accepted.
(** Others reserve room for the number written in their count field, if they get that far ... *)
Theorem C193_field env typ data : reserved env typ data <> 0 ->
  exists o w, count_field typ data = Some (o, w) /\ 0 <= o /\ (w = 1 \/ w = 2) /\ o + w <= zlen data /\
    reserved env typ data = number (firstn (Z.to_nat w) (skipn (Z.to_nat o) data)).
Proof. exact (reserved_field env typ data). Qed.
Print Assumptions C193_field.
(** ... so never for more than 65535 elements, and for more than 255 in five types only. *)
Theorem C193_bound env typ data : bytes_ok data -> 0 <= reserved env typ data <= 65535 /\
  (~ In typ [0x0704; 0x0705; 0x0802; 0x0805; 0x8604] -> reserved env typ data <= 255).
Proof. exact (reserved_bound env typ data). Qed.
Print Assumptions C193_bound.
(** Two IDs; three announced and one of them there. *)
Example C193_case : decode demo_env 0x8601 [2; 0; 0; 0; 7; 0; 0; 1; 0] = Ok (E8601 (TIds [7; 256]), 8) /\ reserved demo_env 0x8601 [2; 0; 0; 0; 7; 0; 0; 1; 0] = 2 /\
  decode demo_env 0x0805 [0; 1; 0; 0; 3; 0; 0; 0; 9] = Err ErrUnexpectedEOF /\ reserved demo_env 0x0805 [0; 1; 0; 0; 3; 0; 0; 0; 9] = 3.
Proof. vm_compute. auto. Qed.
