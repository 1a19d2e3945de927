(** Exactly which error a frame is refused with: C170 (protocol/message.go:68-181, protocol/header.go:51-108). *)
From Verif Require Import Base Env Registry Message SpecFrame SpecMsg SpecArrive Demo SpecWrong ProofRead5 ProofWrong DemoWrong.

(** C170. Message.Decode returns an error exactly if something is wrong with the bytes, and exactly the error for it. *)
Theorem C170_error_exact env key data e : key_ok env key -> bytes_ok data ->
  (msg_decode env key data = Err e <-> wrong env key data e).
Proof. exact (decode_wrong env key data e). Qed.
Print Assumptions C170_error_exact.
(** Whatever the bytes, they are either a message, and one only, or the frame with one byte inside, or one thing is wrong with them. *)
Theorem C170_complete env key data : key_ok env key -> bytes_ok data ->
  ((exists m, message_in env key data m) /\ (forall m1 m2, message_in env key data m1 -> message_in env key data m2 -> m1 = m2) /\
     ~ crashing data /\ (forall e, ~ wrong env key data e)) \/
  (crashing data /\ (forall m, ~ message_in env key data m) /\ (forall e, ~ wrong env key data e)) \/
  ((exists e, wrong env key data e) /\ (forall e1 e2, wrong env key data e1 -> wrong env key data e2 -> e1 = e2) /\
     (forall m, ~ message_in env key data m) /\ ~ crashing data).
Proof. exact (frames_complete env key data). Qed.
Print Assumptions C170_complete.
(** Each of the errors occurs. *)
Example C170_case : key_ok demo_env None /\ key_ok demo_env (Some 1) /\
  Forall (fun x => bytes_ok (fst x) /\ msg_decode demo_env None (fst x) = Err (snd x) /\ wrong demo_env None (fst x) (snd x)) wrong_frames /\
  map snd wrong_frames = [ErrInvalidMessage; ErrInvalidCheckSum; ErrInvalidHeader; ErrParse; ErrUnexpectedEOF; ErrDecryptMessageFailed].
Proof. exact (conj I (conj (conj eq_refl demo_plain) (conj wrong_cases eq_refl))). Qed.
