(** Concrete frames for C170. *)
From Verif Require Import Base LibBase Env Registry Message SpecMsg Demo SpecWrong ProofWrong.

(** An escape followed by 0x03; a wrong checksum; a payload of one byte; a terminal number of zeros; the packet flag without
    packet fields; an encrypted body for a receiver without a key. *)
Definition wrong_frames : list (bytes * goerr) :=
  [([126; 125; 3; 0; 126], ErrInvalidMessage);
   ([126; 1; 2; 126], ErrInvalidCheckSum);
   ([126; 5; 5; 126], ErrInvalidHeader);
   ([126; 0; 2; 0; 0; 0; 0; 0; 0; 0; 0; 0; 7; 5; 126], ErrParse);
   ([126; 0; 2; 32; 0; 0; 0; 0; 0; 0; 1; 0; 7; 36; 126], ErrUnexpectedEOF);
   ([126; 0; 2; 4; 0; 0; 0; 0; 0; 0; 1; 0; 7; 0; 126], ErrDecryptMessageFailed)].
Lemma wrong_cases : Forall (fun x => bytes_ok (fst x) /\ msg_decode demo_env None (fst x) = Err (snd x) /\ wrong demo_env None (fst x) (snd x)) wrong_frames.
Proof.
  assert (G : forall d e, bytes_ok d -> msg_decode demo_env None d = Err e -> bytes_ok d /\ msg_decode demo_env None d = Err e /\ wrong demo_env None d e).
  { intros d e B H. split; [exact B|]. split; [exact H|]. apply decode_wrong; auto. exact I. }
  unfold wrong_frames. repeat (apply Forall_cons; [apply G; [repeat (apply Forall_cons; [cbv; intuition congruence|]); apply Forall_nil|vm_compute; reflexivity]|]). apply Forall_nil.
Qed.
