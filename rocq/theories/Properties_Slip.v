(** Properties of frames and streams one byte of which was changed on the way (protocol/message.go:68-181, protocol.go:101-175). *)
From Verif Require Import Base Env EntTerm Registry Message Codec SpecFrame SpecMsg SpecStream Demo SpecSlip ProofSlip2 ProofSlip3 ProofSlip5 DemoSlip.

(** C166 does not hold: a flipped bit in the length of a message is not noticed, and the message counts as one of another terminal; *)
Theorem C166_refuted : exists env m data m' data' h, msg_encode env None 0 m = Ok (data, m') /\ mangled data data' /\
  msg_decode env None data' = Ok (Message h BNil) /\ h_icc h <> h_icc (m_hdr m).
Proof. exact (match slip_encoded with ex_intro _ m' E => ex_intro _ demo_env (ex_intro _ slip_msg (ex_intro _ slip_data (ex_intro _ m' (ex_intro _ slip_bad (ex_intro _ slip_hdr (conj E (conj slip_mangled (conj slip_decoded (fun H : 380013800000 = 13800138000 => match Z.eqb_neq 380013800000 13800138000 with conj f _ => f eq_refl H end)))))))))  end). Qed.
Print Assumptions C166_refuted.
(** and a byte of a frame that arrives as a delimiter can crash the process. *)
Theorem C166_crash_refuted : exists env m data m' data' cs buf evs, msg_encode env None 0 m = Ok (data, m') /\ one_changed data data' /\
  concat cs = data' /\ reads_ok cs /\ receive env None [] (map RData cs) = (GotPanic, buf, evs).
Proof. exact cut_crashes. Qed.
Print Assumptions C166_crash_refuted.

(** C167. A frame one byte of which arrived as another one, which is no delimiter, is refused exactly unless 0x7c became 0x7d
    or 0x7d became 0x7c in front of 0x01 or 0x02. *)
Theorem C167_refused env key p data data' : p <> [] -> frame p (xor_all p) data -> mangled data data' -> ~ slip data data' ->
  msg_decode env key data' = Err ErrInvalidMessage \/ msg_decode env key data' = Err ErrInvalidCheckSum.
Proof. exact (mangled_refused env key p data data'). Qed.
Print Assumptions C167_refused.
(** Otherwise it is read as the frame of a payload that is one byte shorter or longer. *)
Theorem C167_slipped p data data' : frame p (xor_all p) data -> slip data data' ->
  exists q, carries data' q /\ (shorter (p ++ [xor_all p]) (q ++ [xor_all q]) \/ shorter (q ++ [xor_all q]) (p ++ [xor_all p])).
Proof. exact (slip_carries p data data'). Qed.
Print Assumptions C167_slipped.
Example C167_case : slip slip_data slip_bad /\ mangled slip_data slip_bad /\
  frame [9; 0; 0; 7] (xor_all [9; 0; 0; 7]) [126; 9; 0; 0; 7; 14; 126] /\ mangled [126; 9; 0; 0; 7; 14; 126] [126; 9; 0; 0; 125; 14; 126] /\ ~ slip [126; 9; 0; 0; 7; 14; 126] [126; 9; 0; 0; 125; 14; 126].
Proof. exact (conj slip_slip (conj slip_mangled noticed_case)). Qed.

(** C168. Whatever byte between the delimiters of an encoded message arrives as whatever byte but a delimiter, no body is
    decoded from the frame, whoever receives it. *)
Theorem C168_no_body env key rnd m e data m' data' : m_body m = BEnt e -> 0 <= h_prop (m_hdr m) < 16384 ->
  msg_encode env key rnd m = Ok (data, m') -> mangled data data' ->
  forall env' key', (exists x, msg_decode env' key' data' = Err x) \/ exists h, msg_decode env' key' data' = Ok (Message h BNil).
Proof. exact (no_wrong_body env key rnd m e data m' data'). Qed.
Print Assumptions C168_no_body.
Example C168_case : (exists m', msg_encode demo_env None 0 slip_msg = Ok (slip_data, m')) /\ mangled slip_data slip_bad /\ msg_decode demo_env None slip_bad = Ok (Message slip_hdr BNil).
Proof. exact (conj slip_encoded (conj slip_mangled slip_decoded)). Qed.

(** C169. One byte of a stream of messages arrives as another one, delimiters not excepted. However the stream is cut into
    reads, what is received are the messages in front of the one with the changed byte, then nothing more; or that message
    or one without a body, and then nothing more or all the messages behind it. *)
Theorem C169_stream env key env' key' ds rs s' cs tail : Forall2 (shipped env key env' key') ds rs -> one_changed (concat ds) s' ->
  concat cs = s' -> reads_ok cs -> quiet_tail tail ->
  exists da d d' db a r b ms e, ds = da ++ d :: db /\ rs = a ++ r :: b /\ length da = length a /\ one_changed d d' /\ s' = concat da ++ d' ++ concat db /\
    (ms = a \/ exists n, (n = r \/ m_body n = BNil) /\ (ms = a ++ [n] \/ ms = a ++ n :: b)) /\
    forall fuel, (length ms < fuel)%nat -> receive_all fuel env' key' [] (map RData cs ++ tail) = (ms, e).
Proof. exact (damaged_stream env key env' key' ds rs s' cs tail). Qed.
Print Assumptions C169_stream.
(** Three messages, the second with a flipped bit *)
Example C169_case : exists r, Forall2 (shipped demo_env None demo_env None) [slip_data; slip_data; slip_data] [r; r; r] /\
  one_changed (concat [slip_data; slip_data; slip_data]) (slip_data ++ slip_bad ++ slip_data) /\
  until_error demo_env None Waiting (runs (slip_data ++ slip_bad ++ slip_data)) = ([r; Message slip_hdr BNil; r], Waiting).
Proof. exact stream_case. Qed.
