(** Properties of types that the application registers (protocol/register.go:339-341, protocol/extra/register.go:74-76). *)
From Verif Require Import Base LibBase Env EntTerm EntPlat Registry Message SpecEntity SpecBody SpecMsg SpecFrame ProofFrame ProofMsg ProofMsg2 Demo Custom SpecCustom ProofCustom DemoCustom ProofCustom2.

(** C109. A registered type travels: whatever the last registration for the ID makes of the body's bytes is what
    Decode delivers, with the header of the message. *)
Theorem C109_travels {C} env (calls : list (registration C)) h (b : any C) raw f a rnd :
  said_pointer b -> is_u16 (said_id b) -> last_call calls (said_id b) f -> said_bytes env b = Ok raw -> f raw = Ok a ->
  hdr_fits h -> Z.testbit (h_prop h) 10 = false -> zlen raw <= 1023 ->
  let h' := hdr_arrives h (said_id b) (zlen raw) in
  exists data, am_encode env None rnd (AMessage h (Some b)) = Ok (data, AMessage h' (Some (said_after b))) /\
  forall key, am_decode env calls key data = Ok (AMessage h' (Some a)).
Proof. exact (custom_travels_said env calls h b raw f a rnd). Qed.
Print Assumptions C109_travels.
(** Encrypted, it needs the private key. *)
Theorem C109_secret {C} env pub priv (calls : list (registration C)) h (b : any C) raw f a rnd : rsa_pair env pub priv ->
  said_pointer b -> is_u16 (said_id b) -> last_call calls (said_id b) f -> said_bytes env b = Ok raw -> bytes_ok raw -> f raw = Ok a ->
  hdr_fits h -> cipher_len env pub (zlen raw) <= 1023 ->
  let h' := hdr_arrives (encrypted h) (said_id b) (cipher_len env pub (zlen raw)) in
  exists data, am_encode env (Some pub) rnd (AMessage h (Some b)) = Ok (data, AMessage h' (Some (said_after b))) /\
  am_decode env calls (Some priv) data = Ok (AMessage h' (Some a)) /\ am_decode env calls None data = Err ErrDecryptMessageFailed.
Proof. exact (custom_secret_said env pub priv calls h b raw f a rnd). Qed.
Print Assumptions C109_secret.
(** Frames of types that are not registered are decoded as if nothing were registered. *)
Theorem C109_others {C} env (calls : list (registration C)) key data :
  (forall p h, carries data p -> hdr_decode p = Ok h -> unregistered calls (h_id h)) ->
  am_decode env calls key data = (do m <- msg_decode env key data ; Ok (of_message m)).
Proof. exact (unregistered_same env calls key data). Qed.
Print Assumptions C109_others.
(** Sending a body of the package is what it was. *)
Theorem C109_own {C} env key rnd m e : m_body m = BEnt e ->
  am_encode env key rnd (@of_message C m) = (do (d, m') <- msg_encode env key rnd m ; Ok (d, of_message m')).
Proof. exact (builtin_encode env key rnd m e). Qed.
Print Assumptions C109_own.
Example C109_case : let b := ACus (C := own_types) (true, [1; 126]) in let f := fun d => Ok (ACus (C := own_types) (true, d)) in
  said_pointer b /\ is_u16 (said_id b) /\ last_call calls_good (said_id b) f /\ said_bytes demo_env b = Ok [1; 126] /\ f [1; 126] = Ok b /\ hdr_fits (own_hdr 1) /\
  Z.testbit (h_prop (own_hdr 1)) 10 = false /\ bytes_ok [1; 126] /\ cipher_len demo_env 1 2 = 128 /\ rsa_pair demo_env 1 2 /\ am_decode demo_env calls_good None own_frame = Ok (AMessage (Header 3840 2 13800138000 7 None) (Some b)).
Proof.
  cbv zeta. split; [reflexivity|]. split; [cbv; intuition congruence|]. split; [exists (firstn 2 calls_good), []; split; [reflexivity|intros []]|].
  split; [reflexivity|]. split; [reflexivity|]. split; [cbv; intuition congruence|]. split; [reflexivity|]. split; [repeat constructor; cbv; congruence|]. split; [reflexivity|]. split; [exact demo_pair|vm_compute; reflexivity].
Qed.
Example C109_other_case : (forall p h, carries answer_frame p -> hdr_decode p = Ok h -> unregistered calls_good (h_id h)) /\
  am_decode demo_env calls_good None answer_frame = Ok (AMessage (Header 1 5 13800138000 7 None) (Some (AEnt (E0001 (T0001 7 2 0))))).
Proof.
  split; [|vm_compute; reflexivity]. intros p h Cr H. apply unframe_carries in Cr. vm_compute in Cr. injection Cr as <-. vm_compute in H. injection H as <-.
  unfold unregistered. cbn [In map fst calls_good h_id]. intuition lia.
Qed.

(** C110. Registering types whose decoders do not panic cannot crash the server: refuted.  If 0x0001 is registered anew,
    the type assertion of Session.message panics on a frame that decodes. *)
Theorem C110_answer_refuted : exists (C : customs) env (calls : list (registration C)) data m, never_panics calls /\ makes_pointers calls /\ bytes_ok data /\
  am_decode env calls None data = Ok m /\ inspect m = Panic.
Proof. exact answer_refuted. Qed.
Print Assumptions C110_answer_refuted.
(** If the registered type is not a pointer, reflect's IsNil does, for a new ID as well. *)
Theorem C110_value_refuted : exists (C : customs) env (calls : list (registration C)) data m, never_panics calls /\ leaves_answers calls /\ bytes_ok data /\
  am_decode env calls None data = Ok m /\ inspect m = Panic.
Proof. exact value_refuted. Qed.
Print Assumptions C110_value_refuted.
(** Such a body cannot be sent either. *)
Theorem C110_send_refuted : exists (C : customs) env h (v : cu C) raw, cu_enc C v = Ok raw /\ am_encode env None 0 (AMessage h (Some (ACus v))) = Panic.
Proof. exact send_refuted. Qed.
Print Assumptions C110_send_refuted.

(** C111. If the decoders do not panic, make pointers, and leave the answers' types alone, no frame crashes the server
    that would not without them, and no decoded message does. *)
Theorem C111_safe {C} env (calls : list (registration C)) key data : harmless calls -> key_ok env key -> bytes_ok data ->
  (am_decode env calls key data = Panic <-> exists x, data = [126; x; 126]) /\
  forall m, am_decode env calls key data = Ok m -> inspect m <> Panic.
Proof. exact (custom_safe env calls key data). Qed.
Print Assumptions C111_safe.
(** A message with a registered body answers no request; it crashes the server exactly if it has the type of an answer or is no pointer. *)
Theorem C111_no_answer {C} h (v : cu C) : let m := AMessage h (Some (ACus v)) in
  (inspect m = Ok (Some 0) <-> cu_nillable C v = true /\ ~ In (h_id h) answer_types) /\ (inspect m = Ok (Some 0) \/ inspect m = Panic).
Proof. exact (custom_answers h v). Qed.
Print Assumptions C111_no_answer.
Example C111_case : harmless calls_good /\ key_ok demo_env None /\ bytes_ok own_frame /\
  inspect (AMessage (Header 3840 2 13800138000 7 None) (Some (ACus (C := own_types) (true, [1; 126])))) = Ok (Some 0).
Proof.
  split; [|split; [exact Logic.I|split; [lits|vm_compute; reflexivity]]]. intros id f d (a & b & E & N) _.
  assert (X : In (id, f) calls_good) by (rewrite E; apply in_or_app; right; left; reflexivity).
  destruct X as [X|[X|[X|[]]]]; injection X as <- <-; try exact Logic.I. split; [reflexivity|]. unfold answer_types. cbn [In]. intuition lia.
Qed.

(** C112. Registered extra items of a position report arrive as what their type makes of the bytes, in order, between the
    package's own; nil ones and unknown ones are left out; up to one byte may follow. *)
Theorem C112_items {I} (calls : list (item_registration I)) xs yss tail : Forall2 (item_arrives calls) xs yss -> zlen tail <= 1 ->
  exists w, write_items xs = Ok w /\ read_all_items calls (w ++ tail) = Ok (concat yss).
Proof. exact (items_travel calls xs yss tail). Qed.
Print Assumptions C112_items.
(** Exactly the bytes that are whole blocks, up to one byte at the end, are read, each block as the last registration,
    the package or nobody has it; a decoder that does not use all its bytes fails the report. *)
Theorem C112_exact {I} (calls : list (item_registration I)) buf ys : bytes_ok buf ->
  (read_all_items calls buf = Ok ys <->
   exists blocks yss tail, buf = concat (map block blocks) ++ tail /\ zlen tail <= 1 /\ Forall2 (block_gives calls) blocks yss /\ ys = concat yss).
Proof. exact (items_exact calls buf ys). Qed.
Print Assumptions C112_exact.
(** Decoders of items that do not panic leave the position report's decoder safe. *)
Theorem C112_safe {I} (calls : list (item_registration I)) buf : (forall id f d, last_call calls id f -> bytes_ok d -> f d <> Panic) -> bytes_ok buf ->
  read_all_items calls buf <> Panic.
Proof. exact (all_items_safe calls buf). Qed.
Print Assumptions C112_safe.
Example C112_case : Forall2 (item_arrives item_calls) [Some (IOwn (new_extra (X01 300))); None; Some (ICus (I := own_items) [5; 6])] [[IOwn (Extra (X01 300) [])]; []; [ICus (I := own_items) [5; 6]]] /\
  write_items (I := own_items) [Some (IOwn (new_extra (X01 300))); None; Some (ICus (I := own_items) [5; 6])] = Ok [1; 4; 0; 0; 1; 44; 240; 2; 5; 6] /\
  (forall id f d, last_call item_calls id f -> bytes_ok d -> f d <> Panic).
Proof.
  split; [|split; [vm_compute; reflexivity|]].
  - apply Forall2_cons; [apply ia_own; [cbv; intuition congruence|unfold unregistered; cbn; intuition lia]|]. apply Forall2_cons; [apply ia_nil|].
    apply Forall2_cons; [|apply Forall2_nil]. apply (ia_custom item_calls (I := own_items) [5; 6] (fun d => Ok (d, zlen d))); [reflexivity| |cbv; congruence|reflexivity].
    exists [], []. split; [reflexivity|intros []].
  - intros id f d (a & b & E & N) _. assert (X : In (id, f) item_calls) by (rewrite E; apply in_or_app; right; left; reflexivity).
    destruct X as [X|[]]. injection X as <- <-. discriminate.
Qed.
