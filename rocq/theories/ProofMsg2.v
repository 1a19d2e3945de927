(** Message results in the form the properties state them. *)
From Verif Require Import Base LibBase Bits Env EntTerm EntPlat Registry Message.
From Verif Require Import SpecFrame SpecGeo SpecEntity SpecRange SpecMsg Demo ProofFrame ProofRound3 ProofSafe ProofBody4 ProofMsg ProofWire3 ProofWire4.

Lemma crash : exists env data, bytes_ok data /\ msg_decode env None data = Panic.
Proof. exists demo_env, [126; 7; 126]. split; [repeat constructor; cbv; congruence|reflexivity]. Qed.
Lemma size_below env rnd m e raw : m_body m = BEnt e -> encode env e = Ok raw -> hdr_fits (m_hdr m) -> zlen raw < 65536 ->
  if zlen raw <=? 1023
  then exists data m', msg_encode env None rnd m = Ok (data, m') /\ get_body_size (h_prop (m_hdr m')) = zlen raw
  else msg_encode env None rnd m = Err ErrBodyTooLong.
Proof.
  intros Hb E F N. destruct (size_exact env rnd m e raw Hb E F) as (A & B). pose proof (zlen_nonneg raw). rewrite Z.mod_small in * by lia.
  destruct (Z.leb_spec (zlen raw) 1023); [apply B; lia|apply A; lia].
Qed.
Lemma encode_bytes env e raw : wf env e -> encode env e = Ok raw -> bytes_ok raw.
Proof. intros W E. destruct (encode_layout env e W) as (d & E' & L & _). rewrite E in E'. injection E' as <-. exact (wire_bytes _ _ L (layout_ok env e W)). Qed.
Lemma secret_round_trip env pub priv rnd m e raw : rsa_pair env pub priv ->
  m_body m = BEnt e -> encode env e = Ok raw -> wf env e -> boundary e = false -> hdr_fits (m_hdr m) ->
  let k := cipher_len env pub (zlen raw) in
  k <= 1023 ->
  exists data m', msg_encode env (Some pub) rnd m = Ok (data, m') /\
  msg_decode env (Some priv) data = Ok (Message (hdr_arrives (encrypted (m_hdr m)) (entity_id e) k) (BEnt (sent env e))) /\
  msg_decode env None data = Err ErrDecryptMessageFailed.
Proof.
  intros P Hb E W B F k K. destruct (round_trip env e W B) as (d & E' & D). rewrite E in E'. injection E' as <-.
  exact (secret_message env pub priv rnd m e raw _ _ P Hb E (encode_bytes env e raw W E) D F K).
Qed.
Lemma demo_pair : rsa_pair demo_env 1 2.
Proof.
  split; [reflexivity|]. split; [reflexivity|]. change (key_size demo_env 1) with 128. intros r m Bm Hm. cbn [demo_env oaep_enc oaep_dec].
  replace (zlen m <=? 86) with true by lia. pose proof (zlen_nonneg m). exists (zlen m :: w_fixed m 127). split; [reflexivity|]. split; [apply bytes_ok_cons; split; [unfold is_byte; lia|apply bytes_ok_w_fixed, Bm]|].
  rewrite zlen_cons, zlen_w_fixed. split; [reflexivity|]. change (1 + Z.of_nat 127 =? 128) with true.
  replace (0 <=? zlen m) with true by lia. replace (zlen m <=? 86) with true by lia. cbn [andb]. f_equal.
  unfold zlen in *. rewrite w_fixed_pad by lia. rewrite Nat2Z.id, firstn_app, firstn_all, Nat.sub_diag. cbn [firstn]. apply app_nil_r.
Qed.
(** C98 *)
Lemma no_body env key rnd h : msg_encode env key rnd (Message h BNil) = Panic.
Proof. reflexivity. Qed.
Lemma no_relay : exists env data m, bytes_ok data /\ msg_decode env None data = Ok m /\ forall key rnd, msg_encode env key rnd m = Panic.
Proof.
  exists demo_env, [126; 15; 255; 0; 2; 1; 56; 0; 19; 128; 0; 0; 7; 9; 9; 95; 126].
  exists (Message (Header 4095 2 13800138000 7 None) BNil).
  split; [repeat constructor; cbv; congruence|]. split; [vm_compute; reflexivity|]. reflexivity.
Qed.
Lemma empty_body env key rnd h i : is_u16 i -> hdr_fits h ->
  exists data, msg_encode env key rnd (Message h (BNilPtr i)) = Ok (data, Message (hdr_arrives h i 0) (BNilPtr i)) /\
  (Z.testbit (h_prop h) 10 = false -> forall priv, msg_decode env priv data = Ok (Message (hdr_arrives h i 0)
     (match decode env i [] with Ok (e, _) => BEnt e | _ => BNil end))).
Proof.
  intros Hi F. assert (N : zlen (@nil Z) mod 65536 <= 1023) by (cbv; congruence).
  destruct (carried_any env key rnd (Message h (BNilPtr i)) i (BNilPtr i) h [] Hi eq_refl eq_refl F N) as (data & A & B).
  exists data. change (zlen (@nil Z)) with 0 in *. split; auto. intros K priv. rewrite B.
  unfold decode_body. change (zlen (@nil Z)) with 0. rewrite (arrives_size h i 0 F N), Z.eqb_refl. cbn [negb]. rewrite arrives_flag, K by auto. cbn [bind].
  cbn [hdr_arrives h_id]. destruct (safe env i [] (Forall_nil _)) as (S & _). destruct (decode env i []) as [[e n]| |]; auto. contradiction.
Qed.
