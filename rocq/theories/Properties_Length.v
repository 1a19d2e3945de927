(** How long frames are: C205, C206. *)
From Verif Require Import Base LibBase Bits Env EntTerm EntPlat Registry Message Codec Demo.
From Verif Require Import SpecFrame SpecMsg SpecStream SpecLength ProofLength.

(** C205. "A frame that Encode writes is never too long for Receive." One with a body of 65536 bytes is: Receive gives up, wherever the stream is cut. *)
Theorem C205_refuted env : exists m e raw data m', m_body m = BEnt e /\ encode env e = Ok raw /\ hdr_fits (m_hdr m) /\ msg_encode env None 0 m = Ok (data, m') /\
  forall key cs more evs, concat cs = data ++ more -> exists b' evs', receive env key [] (map RData cs ++ evs) = (GotErr ErrBodyTooLong, b', evs').
Proof. exact (not_received env). Qed.
Print Assumptions C205_refuted.
(** C206. Exactly how long a frame is, from the header, the body that is sent, and the bytes that are sent as two ... *)
Theorem C206_length env key rnd m data m' : msg_encode env key rnd m = Ok (data, m') -> exists hb bdy c h b,
  enc_body env key rnd m = Ok (bdy, h, b) /\ frame (hb ++ bdy) c data /\ zlen hb = header_length (h_packet (m_hdr m)) /\
  zlen data = zlen hb + zlen bdy + 3 + doubled (hb ++ bdy ++ [c]) /\ zlen bdy mod 65536 <= 1023.
Proof. exact (frame_length env key rnd m data m'). Qed.
Print Assumptions C206_length.
(** ... so it has 15 to 2082 bytes, or at least 65551, encrypted or not ... *)
Theorem C206_extent env key rnd m data m' : msg_encode env key rnd m = Ok (data, m') -> 15 <= zlen data <= 2082 \/ 65551 <= zlen data.
Proof. exact (extent env key rnd m data m'). Qed.
Print Assumptions C206_extent.
(** ... the latter just for bodies of 65536 bytes and more ... *)
Theorem C206_plain env rnd m e raw data m' : m_body m = BEnt e -> encode env e = Ok raw -> msg_encode env None rnd m = Ok (data, m') ->
  if zlen raw <? 65536 then 15 + zlen raw <= zlen data <= 36 + 2 * zlen raw /\ zlen raw <= 1023 else 65551 <= zlen data.
Proof. exact (extent_plain env rnd m e raw data m'). Qed.
Print Assumptions C206_plain.
(** ... which every receiver gives up on, wherever the stream is cut. *)
Theorem C206_cut env key rnd m data m' env' key' cs more evs : msg_encode env key rnd m = Ok (data, m') -> 2082 < zlen data -> concat cs = data ++ more ->
  exists b' evs', receive env' key' [] (map RData cs ++ evs) = (GotErr ErrBodyTooLong, b', evs').
Proof. exact (cut_off env key rnd m data m' env' key' cs more evs). Qed.
Print Assumptions C206_cut.
(** A body of five bytes, three of them sent as two, in a packet; and a frame that is given up on *)
Example C206_case : let m := Message (Header 0 0 5 1 (Some (2, 1))) (BEnt (E8900 (TData 1 [125; 126; 3; 126]))) in
  encode demo_env (E8900 (TData 1 [125; 126; 3; 126])) = Ok [1; 125; 126; 3; 126] /\
  (do (data, _) <- msg_encode demo_env None 0 m ; Ok (zlen data)) = Ok (16 + 5 + 3 + 3).
Proof. split; vm_compute; reflexivity. Qed.
Example C206_long : exists m data m' cs more, msg_encode demo_env None 0 m = Ok (data, m') /\ 2082 < zlen data /\ concat cs = data ++ more.
Proof.
  destruct (unreceivable demo_env) as (m & e & raw & data & m' & _ & _ & _ & M & L). exists m, data, m', [data; [126]], [126]. split; [exact M|]. split; [lia|reflexivity].
Qed.
