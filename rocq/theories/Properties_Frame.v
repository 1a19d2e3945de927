(** Framing: C01 - C04. *)
From Verif Require Import Base Env Registry EntTerm EntPlat Message SpecFrame ProofFrame Demo.

(** C01. A frame produced by Encode has 0x7e at both ends and nowhere else. *)
Theorem C01_encode_delimited env key rnd m data m' :
  msg_encode env key rnd m = Ok (data, m') ->
  exists mid, data = [126] ++ mid ++ [126] /\ ~ In 126 mid.
Proof. exact (encode_delimited env key rnd m data m'). Qed.
Print Assumptions C01_encode_delimited.

(** A general response whose serial, id and result are full of special bytes. *)
Definition ex_msg : message :=
  Message (Header 0 0 13912345678 32382 None) (BEnt (E8001 (T8001 32381 126 3))).
Example C01_case : exists data m', msg_encode demo_env None 0 ex_msg = Ok (data, m') /\ (20 < length data)%nat.
Proof. eexists. eexists. split; [vm_compute; reflexivity|]. vm_compute. repeat constructor. Qed.

(** C02. Every non-empty payload has a frame; that frame is read back as exactly
    this payload by the receiver, and it is the frame of no other payload; and
    what Encode emits is such a frame. *)
Theorem C02_escape_lossless p : p <> [] ->
  (exists data, frame p (xor_all p) data) /\
  (forall data, frame p (xor_all p) data -> unframe data = Ok p) /\
  (forall data q c, frame p (xor_all p) data -> frame q c data -> q ++ [c] = p ++ [xor_all p]).
Proof.
  exact (fun H => conj (frame_exists p) (conj
    (fun data Hf => proj2 (unframe_carries data p) (frame_carries p data H Hf))
    (fun data q c H1 H2 => frame_payload_fun q c p (xor_all p) data H2 H1))).
Qed.
Print Assumptions C02_escape_lossless.

Theorem C02_encode_reads_back env key rnd m data m' :
  msg_encode env key rnd m = Ok (data, m') ->
  exists p, frame p (xor_all p) data /\ carries data p /\ unframe data = Ok p.
Proof. exact (encode_carries env key rnd m data m'). Qed.
Print Assumptions C02_encode_reads_back.

Example C02_case : exists data, frame [126; 125; 1; 2; 126; 126] (xor_all [126; 125; 1; 2; 126; 126]) data.
Proof. exact (frame_exists _). Qed.

(** C03. A frame whose checksum byte is not the exclusive or of its payload is
    refused; in particular one in which a single payload byte was replaced. *)
Theorem C03_wrong_checksum_rejected env key p c data :
  p <> [] -> c <> xor_all p -> frame p c data ->
  msg_decode env key data = Err ErrInvalidCheckSum.
Proof. exact (wrong_checksum_rejected env key p c data). Qed.
Print Assumptions C03_wrong_checksum_rejected.

Theorem C03_single_byte_error_detected env key a x y b data :
  x <> y ->
  frame (a ++ y :: b) (xor_all (a ++ x :: b)) data ->
  msg_decode env key data = Err ErrInvalidCheckSum.
Proof. exact (single_byte_rejected env key a x y b data). Qed.
Print Assumptions C03_single_byte_error_detected.

(** The frame of a message, one payload byte of which was replaced on the way. *)
Theorem C03_encoded_corrupted env key rnd m data m' : msg_encode env key rnd m = Ok (data, m') ->
  exists p, frame p (xor_all p) data /\ forall a x y b data', p = a ++ x :: b -> x <> y -> frame (a ++ y :: b) (xor_all p) data' ->
    forall env' key', msg_decode env' key' data' = Err ErrInvalidCheckSum.
Proof. exact (encoded_corrupted env key rnd m data m'). Qed.
Print Assumptions C03_encoded_corrupted.

Theorem C03_accepted_has_checksum env key data m :
  msg_decode env key data = Ok m ->
  exists p w v, data = [126] ++ w ++ v ++ [126] /\ reads w p /\ checksum_sent (xor_all p) v.
Proof.
  exact (fun H => match decode_carries env key data m H with
    ex_intro _ p (conj (conj _ (ex_intro _ w (ex_intro _ v X))) _) => ex_intro _ p (ex_intro _ w (ex_intro _ v X)) end).
Qed.
Print Assumptions C03_accepted_has_checksum.

Example C03_case : exists data, frame ([0; 2] ++ 7 :: [9]) (xor_all ([0; 2] ++ 6 :: [9])) data /\
  msg_decode demo_env None data = Err ErrInvalidCheckSum.
Proof.
  exists [126; 0; 2; 7; 9; 13; 126]. split; [|vm_compute; reflexivity].
  exists [0; 2; 7; 9], [13]. split; [|split; [|reflexivity]]; repeat (constructor; try discriminate).
Qed.

(** C04. The frame layer accepts exactly the byte strings that carry a payload
    with its checksum; payload and header are determined by the frame; and
    without interior delimiters the frame is the one Encode would write, up to
    a checksum 0x7d sent unescaped. *)
Theorem C04_accepts_exactly data p : unframe data = Ok p <-> carries data p.
Proof. exact (unframe_carries data p). Qed.
Print Assumptions C04_accepts_exactly.

Theorem C04_payload_unique data p q : carries data p -> carries data q -> p = q.
Proof. exact (carries_fun data p q). Qed.
Print Assumptions C04_payload_unique.

Theorem C04_decode_accepts_frames_only env key data m :
  msg_decode env key data = Ok m -> exists p, carries data p /\ hdr_decode p = Ok (m_hdr m).
Proof. exact (decode_carries env key data m). Qed.
Print Assumptions C04_decode_accepts_frames_only.

Theorem C04_strict data mid p :
  delimited data mid -> ~ In 126 mid -> carries data p ->
  frame p (xor_all p) data \/
  (xor_all p = 125 /\ exists w, escaped p w /\ data = [126] ++ w ++ [125] ++ [126]).
Proof. exact (frame_strict data mid p). Qed.
Print Assumptions C04_strict.

Example C04_case : carries [126; 1; 124; 125; 126] [1; 124].
Proof.
  split; [discriminate|]. exists [1; 124], [125]. split; [reflexivity|]. split; [repeat constructor; discriminate|left; reflexivity].
Qed.
