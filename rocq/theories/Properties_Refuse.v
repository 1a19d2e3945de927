(** Exactly which bodies and messages cannot be encoded: C171, C172 (protocol/message.go:20-65, the Encode methods, protocol/helpers.go:14-53). *)
From Verif Require Import Base Env EntTerm EntPlat Registry Message SpecFrame SpecMsg SpecWire Demo SpecRefuse ProofRefuse DemoRefuse.

(** C171. The Encode method of a body returns an error exactly if something in the body cannot be sent, and the error for it; *)
Theorem C171_error_exact env e x : encode env e = Err x <-> unsendable env e x.
Proof. exact (body_refused env e x). Qed.
Print Assumptions C171_error_exact.
(** it panics exactly if one of its terminal parameters is nil. *)
Theorem C171_panic_exact env e : encode env e = Panic <-> holed e.
Proof. exact (body_panics env e). Qed.
Print Assumptions C171_panic_exact.
Example C171_case : encode strict_env (E8401 (T8401 1 [Contact 1 [49] [65]; Contact 2 [50] [255]])) = Err ErrText /\
  encode strict_env (E0104 (T0104 7 [None])) = Panic /\ encode strict_env (E8400 (T8400 1 [255])) = Ok [1].
Proof. exact (conj eq_refl (conj eq_refl eq_refl)). Qed.

(** C172. Message.Encode returns an error exactly if something keeps the message from being encoded, and the error for it; *)
Theorem C172_error_exact env key rnd m x : msg_encode env key rnd m = Err x <-> refused env key rnd m x.
Proof. exact (message_refused env key rnd m x). Qed.
Print Assumptions C172_error_exact.
(** it panics exactly in four cases; *)
Theorem C172_panic_exact env key rnd m : msg_encode env key rnd m = Panic <-> panics env key rnd m.
Proof. exact (message_panics env key rnd m). Qed.
Print Assumptions C172_panic_exact.
(** otherwise the result is the frame of a header that names the type and the length of the body, followed by the body, encrypted
    if there is a key. *)
Theorem C172_frame env key rnd m i b : body_bytes env key rnd m b -> numbered m i -> is_u16 i -> hdr_fits (m_hdr m) -> zlen b mod 65536 <= 1023 ->
  exists data m' hb, msg_encode env key rnd m = Ok (data, m') /\ frame (hb ++ b) (xor_all (hb ++ b)) data /\
  on_wire (header_layout i (wire_prop (marked key m) (zlen b mod 65536) (has (h_packet (m_hdr m)))) (h_icc (m_hdr m)) (h_serial (m_hdr m)) (h_packet (m_hdr m))) hb.
Proof. exact (sent_frame env key rnd m i b). Qed.
Print Assumptions C172_frame.
(** Each error and each panic occurs. *)
Example C172_case :
  Forall (fun x => msg_encode strict_env (fst (fst x)) 0 (snd (fst x)) = Err (snd x) /\ refused strict_env (fst (fst x)) 0 (snd (fst x)) (snd x)) refused_cases /\
  Forall (fun x => msg_encode strict_env (fst x) 0 (snd x) = Panic /\ panics strict_env (fst x) 0 (snd x)) panic_cases /\
  map snd refused_cases = [ErrText; ErrText; ErrKey; ErrOther; ErrCrypt; ErrBodyTooLong; ErrBodyTooLong] /\
  (exists b, body_bytes strict_env (Some 1) 0 secret_msg b /\ zlen b = 256) /\ numbered secret_msg 2304.
Proof. exact (conj refused_all (conj panics_all (conj eq_refl (conj secret_bytes (or_intror (ex_intro _ (E0900 (TData 1 (repeat 7 99))) (conj eq_refl eq_refl))))))). Qed.
