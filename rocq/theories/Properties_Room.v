(** Room for the text of a message under a key: C207, C208. *)
From Verif Require Import Base LibBase Env EntTerm EntPlat Registry Message Demo.
From Verif Require Import SpecFrame SpecMsg SpecRoom ProofMsg ProofMsg2 ProofRoom.

(** C207. "A body that can be sent in the clear can be sent with a key." A body of 982 bytes can not, whatever the key. *)
Theorem C207_refuted env pub priv rnd : rsa_pair env pub priv -> key_size env pub <= 65535 -> exists m e raw,
  m_body m = BEnt e /\ encode env e = Ok raw /\ zlen raw = 982 /\ hdr_fits (m_hdr m) /\
  (exists data m', msg_encode env None rnd m = Ok (data, m')) /\ msg_encode env (Some pub) rnd m = Err ErrBodyTooLong.
Proof. exact (clear_only env pub priv rnd). Qed.
Print Assumptions C207_refuted.
(** C208. A key of k bytes leaves room for just 1023 / k * (k - 42) bytes ... *)
Theorem C208_room env pub priv rnd m e raw : rsa_pair env pub priv -> key_size env pub <= 65535 -> m_body m = BEnt e -> encode env e = Ok raw -> bytes_ok raw ->
  hdr_fits (m_hdr m) -> zlen raw <= 1023 ->
  if zlen raw <=? room (key_size env pub) then exists data m', msg_encode env (Some pub) rnd m = Ok (data, m')
  else msg_encode env (Some pub) rnd m = Err ErrBodyTooLong.
Proof. exact (under_key env pub priv rnd m e raw). Qed.
Print Assumptions C208_room.
(** ... which is never more than 981. *)
Theorem C208_most k : 42 < k -> 0 <= room k <= 981.
Proof. exact (room_most k). Qed.
Print Assumptions C208_most.
(** Keys of 1024, 2048 and 4096 bits, one that leaves the most room, and one of 8192 bits, with which only empty bodies are sent *)
Example C208_keys : map room [128; 256; 512; 1023; 1024] = [602; 642; 470; 981; 0]. Proof. reflexivity. Qed.
Example C208_case : rsa_pair demo_env 1 2 /\ key_size demo_env 1 = 128 /\
  let m n := Message (Header 0 0 1 1 None) (BEnt (E8900 (TData 1 (repeat 0 n)))) in hdr_fits (m_hdr (m 0%nat)) /\
  (do (_, _) <- msg_encode demo_env (Some 1) 0 (m 601%nat) ; Ok tt) = Ok tt /\ msg_encode demo_env (Some 1) 0 (m 602%nat) = Err ErrBodyTooLong.
Proof.
  split; [exact demo_pair|]. split; [reflexivity|]. split; [|split; vm_compute; reflexivity].
  unfold hdr_fits, is_u16. cbn [m_hdr h_prop h_icc h_serial h_packet]. split; [lia|]. split; [lia|]. split; [lia|]. reflexivity.
Qed.
