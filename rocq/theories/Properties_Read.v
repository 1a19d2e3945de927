(** Exactly which bytes are accepted, and as what: C99, C100; writing again what was read: C101. *)
From Verif Require Import Base LibBase GoTime Decimal Env EntTerm EntPlat Registry Message.
From Verif Require Import SpecFrame SpecEntity SpecMsg SpecBody SpecWire SpecRead SpecArrive SpecAgain Demo.
From Verif Require Import ProofRead4 ProofRead5 ProofAgain.

(** C99. A body decoder accepts exactly the bytes that begin with the fields of a body of its type; the body it
    gives and the number of bytes it reports are those of these fields. *)
Theorem C99_decode_exact env typ d e n : bytes_ok d ->
  (decode env typ d = Ok (e, n) <->
   typ = type_number e /\ least e <= zlen d /\ exists rest, takes env (reading e) d rest /\ n = tally e d rest).
Proof. exact (decode_exact env typ d e n). Qed.
Print Assumptions C99_decode_exact.
(** Anything else is refused with an error. *)
Theorem C99_decode_refuses env typ d : bytes_ok d ->
  ((exists x, decode env typ d = Err x) <-> forall e, ~ begins_with env typ e d).
Proof. exact (decode_refuses env typ d). Qed.
Print Assumptions C99_decode_refuses.
(** One parameter and a byte that is left over; text after a zero byte is dropped; absent text is empty. *)
Example C99_case : let e := E0104 (T0104 7 [Some (Param 1 [9; 9])]) in let d := [0; 7; 1; 0; 0; 0; 1; 2; 9; 9; 55] in
  bytes_ok d /\ takes demo_env (reading e) d [55] /\ least e <= zlen d /\ tally e d [55] = 10 /\
  decode demo_env 260 d = Ok (e, 10) /\
  decode demo_env 33024 [0; 7; 1; 65; 66; 0; 67] = Ok (E8100 (T8100 7 1 [65; 66]), 7) /\
  decode demo_env 33024 [0; 7; 1] = Ok (E8100 (T8100 7 1 []), 3) /\
  decode demo_env 33024 [0; 7] = Err PErrInvalidBody.
Proof.
  cbv zeta. split; [repeat (apply Forall_cons; [cbv; intuition congruence|]); apply Forall_nil|]. split.
  { assert (N : forall w v b d, length b = w -> bytes_ok b -> value b = v -> holds demo_env (num w v) b d) by (intros; apply HAs, ShNum; auto).
    cbn [reading many map concat param_reading app pr_id pr_val a0104_serial a0104_params].
    apply (TkCons _ _ _ [0; 7]); [apply N; [reflexivity|repeat (apply Forall_cons; [cbv; intuition congruence|]); apply Forall_nil|reflexivity]|].
    apply (TkCons _ _ _ [1]); [apply N; [reflexivity|repeat (apply Forall_cons; [cbv; intuition congruence|]); apply Forall_nil|reflexivity]|].
    apply (TkCons _ _ _ [0; 0; 0; 1]); [apply N; [reflexivity|repeat (apply Forall_cons; [cbv; intuition congruence|]); apply Forall_nil|reflexivity]|].
    apply (TkCons _ _ _ [2]); [apply N; [reflexivity|repeat (apply Forall_cons; [cbv; intuition congruence|]); apply Forall_nil|reflexivity]|].
    apply (TkCons _ _ _ [9; 9]); [apply HAs, ShRaw|apply TkNil]. }
  split; [vm_compute; congruence|]. repeat (split; [vm_compute; reflexivity|]). vm_compute. reflexivity.
Qed.

(** C100. A header is read from exactly the bytes that are its fields. *)
Theorem C100_header_exact p h : bytes_ok p -> (hdr_decode p = Ok h <-> exists hb d, p = hb ++ d /\ header_is h hb).
Proof. exact (hdr_exact p h). Qed.
Print Assumptions C100_header_exact.
(** A message is decoded from exactly the frames whose payload is the header and the body of that message,
    deciphered if it is marked as encrypted; a body of another length than announced, or that is no body of its
    type, leaves the message without a body. *)
Theorem C100_message_exact env key data m : key_ok env key -> bytes_ok data ->
  (msg_decode env key data = Ok m <-> exists hb d, carries data (hb ++ d) /\ is_message env key hb d m).
Proof. exact (message_exact env key data m). Qed.
Print Assumptions C100_message_exact.
(** An answer with a text, and a message of an unknown type, which has no body. *)
Example C100_case : key_ok demo_env None /\ key_ok demo_env (Some 1) /\
  (let data := [126; 129; 0; 0; 7; 1; 56; 0; 19; 128; 0; 0; 7; 0; 7; 1; 65; 66; 0; 67; 109; 126] in
   bytes_ok data /\
   msg_decode demo_env None data = Ok (Message (Header 33024 7 13800138000 7 None) (BEnt (E8100 (T8100 7 1 [65; 66]))))) /\
  (let data := [126; 15; 255; 0; 2; 1; 56; 0; 19; 128; 0; 0; 7; 9; 9; 95; 126] in
   bytes_ok data /\ msg_decode demo_env None data = Ok (Message (Header 4095 2 13800138000 7 None) BNil)) /\
  exists hb, header_is (Header 33024 7 13800138000 7 None) hb.
Proof.
  split; [exact I|]. split; [split; [reflexivity|exact demo_plain]|]. split; [split; [repeat (apply Forall_cons; [cbv; intuition congruence|]); apply Forall_nil|vm_compute; reflexivity]|].
  split; [split; [repeat (apply Forall_cons; [cbv; intuition congruence|]); apply Forall_nil|vm_compute; reflexivity]|].
  assert (E : hdr_decode [129; 0; 0; 7; 1; 56; 0; 19; 128; 0; 0; 7] = Ok (Header 33024 7 13800138000 7 None)) by (vm_compute; reflexivity).
  apply hdr_exact in E as (hb & d & _ & H); [exists hb; exact H|repeat (apply Forall_cons; [cbv; intuition congruence|]); apply Forall_nil].
Qed.

(** C101. Bodies without text, padding, extra items or compression are encoded again to the bytes they were decoded from. *)
Theorem C101_body_again env e typ d n : bytes_ok d -> decode env typ d = Ok (e, n) -> one_form e ->
  exists b rest, d = b ++ rest /\ encode env e = Ok b.
Proof. exact (again env e typ d n). Qed.
Print Assumptions C101_body_again.
(** A frame with such a body, and nothing after it, is encoded again to the same frame. *)
Theorem C101_frame_again env rnd data p m e : bytes_ok data -> frame p (xor_all p) data -> zlen p < 65536 ->
  msg_decode env None data = Ok m -> m_body m = BEnt e -> one_form e -> takes env (reading e) (after_header (m_hdr m) p) [] ->
  exists m', msg_encode env None rnd m = Ok (data, m').
Proof. exact (relay env rnd data p m e). Qed.
Print Assumptions C101_frame_again.
(** A circle on the southern hemisphere, centred on the equator: the flag stays set although the latitude is zero. *)
Example C101_case : let d := [1; 1; 0; 0; 0; 9; 0; 192; 0; 0; 0; 0; 0; 0; 0; 5; 0; 0; 0; 100] in
  bytes_ok d /\ exists e n, decode demo_env 0x8600 d = Ok (e, n) /\ one_form e /\ encode demo_env e = Ok d.
Proof.
  cbv zeta. split; [repeat (apply Forall_cons; [cbv; intuition congruence|]); apply Forall_nil|].
  eexists _, _. split; [vm_compute; reflexivity|]. split; [exact I|vm_compute; reflexivity].
Qed.
(** A general answer of a terminal, serial number 126. *)
Example C101_frame_case : let data := [126; 0; 1; 0; 5; 1; 56; 0; 19; 128; 0; 0; 125; 2; 0; 7; 129; 3; 0; 85; 126] in
  bytes_ok data /\ frame [0; 1; 0; 5; 1; 56; 0; 19; 128; 0; 0; 126; 0; 7; 129; 3; 0] 85 data /\
  msg_decode demo_env None data = Ok (Message (Header 1 5 13800138000 126 None) (BEnt (E0001 (T0001 7 33027 0)))) /\
  exists m', msg_encode demo_env None 0 (Message (Header 1 5 13800138000 126 None) (BEnt (E0001 (T0001 7 33027 0)))) = Ok (data, m').
Proof.
  cbv zeta. split; [repeat (apply Forall_cons; [cbv; intuition congruence|]); apply Forall_nil|].
  split; [exists [0; 1; 0; 5; 1; 56; 0; 19; 128; 0; 0; 125; 2; 0; 7; 129; 3; 0], [85]|].
  - split; [repeat (first [apply esc_delim|apply esc_plain; [lia|lia|]]); apply esc_nil|]. split; [apply esc_plain; [lia|lia|apply esc_nil]|reflexivity].
  - split; [vm_compute; reflexivity|]. eexists. vm_compute. reflexivity.
Qed.
