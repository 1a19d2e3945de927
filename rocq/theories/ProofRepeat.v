(** A message that was encoded is encoded again to the same frame. *)
From Verif Require Import Base LibBase Bits LibBits Bcd Env Registry EntTerm EntPlat Message.
From Verif Require Import SpecFrame SpecGeo SpecEntity SpecRange SpecMsg LibEntity ProofFrame ProofHeader ProofBody ProofBody2 ProofBody3 ProofBody4 ProofMsg.

Lemma prop_again p n (pk : bool) : is_u16 p -> 0 <= n <= 1023 -> let q := if pk then enable_packet (p / 1024 * 1024 + n) else p / 1024 * 1024 + n in
  is_u16 q /\ q / 1024 * 1024 + n = q /\ (pk = true -> enable_packet q = q) /\ (Z.testbit p 10 = true -> enable_encrypt q = q).
Proof.
  intros P N q. assert (U : is_u16 q) by (unfold q; destruct pk; [apply enable_packet_u16|]; apply size_u16; auto).
  assert (W : q = wire_prop p n pk) by (unfold q, wire_prop, mark; destruct pk; reflexivity).
  split; [exact U|]. split; [|split].
  - pose proof (wire_size p n pk P N) as S. rewrite <- W, get_body_size_mod in S. lia.
  - intros ->. apply Z.bits_inj'. intros i Hi. rewrite enable_packet_testbit by lia. unfold q. rewrite enable_packet_testbit by lia.
    destruct (i =? 13); rewrite ?orb_true_r, ?orb_false_r; reflexivity.
  - intros B. apply Z.bits_inj'. intros i Hi. rewrite enable_encrypt_testbit by lia. destruct (Z.eqb_spec i 10) as [->|]; [|apply orb_false_r].
    rewrite orb_true_r. rewrite W, wire_bits by lia. rewrite B. reflexivity.
Qed.
Lemma message_again env key rnd m data m' e : is_u16 (h_prop (m_hdr m)) -> m_body m = BEnt e -> msg_encode env key rnd m = Ok (data, m') ->
  m_body m' = BEnt (encoded e) /\ ((forall x, e <> E0801 x) -> exists m'', msg_encode env key rnd m' = Ok (data, m'')).
Proof.
  intros U B. unfold msg_encode. cbv zeta. unfold enc_body. rewrite B. cbn [body_id].
  destruct (encode env e) as [raw| |] eqn:E; try discriminate. cbn [bind].
  set (h0 := match key with Some _ => set_prop (m_hdr m) (enable_encrypt (h_prop (m_hdr m))) | None => m_hdr m end).
  assert (C : exists o, (match key with Some pub => do enc <- encrypt_oaep env pub rnd raw; Ok (enc, set_prop (m_hdr m) (enable_encrypt (h_prop (m_hdr m))), BEnt (encoded e)) | None => Ok (raw, m_hdr m, BEnt (encoded e)) end) = (do bdy <- o ; Ok (bdy, h0, BEnt (encoded e)))
     /\ o = match key with Some pub => encrypt_oaep env pub rnd raw | None => Ok raw end).
  { unfold h0. exists (match key with Some pub => encrypt_oaep env pub rnd raw | None => Ok raw end). destruct key; split; reflexivity. }
  destruct C as (o & -> & Eo). destruct o as [bdy| |]; try discriminate. cbn [bind].
  assert (U0 : is_u16 (h_prop h0)) by (unfold h0; destruct key; [apply enable_encrypt_u16|]; exact U).
  destruct (set_body_size (h_prop h0) (u16 (zlen bdy))) as [prop| |] eqn:S; try discriminate. cbn [bind].
  pose proof (set_body_size_inv _ _ _ S) as L. assert (N : 0 <= u16 (zlen bdy) <= 1023) by (unfold u16 in *; lia).
  rewrite set_body_size_ok in S by auto. injection S as <-. set (n := u16 (zlen bdy)) in *.
  set (pk := match h_packet h0 with Some _ => true | None => false end).
  pose proof (prop_again (h_prop h0) n pk U0 N) as Q. cbv zeta in Q. set (q := if pk then _ else _) in Q. destruct Q as (Q1 & Q2 & Q3 & Q4).
  set (h1 := set_prop (set_id h0 (entity_id e)) (h_prop h0 / 1024 * 1024 + n)).
  assert (K : match h_packet h1 with Some _ => enable_packet (h_prop h1) | None => h_prop h1 end = q).
  { unfold q, pk, h1, set_prop, set_id. cbn [h_packet h_prop]. destruct (h_packet h0); reflexivity. }
  destruct (hdr_encode h1) as [[hb h2]| |] eqn:H; try discriminate. cbn [bind]. intros D. injection D as D <-. cbn [m_body]. split; [reflexivity|].
  intros X. cbn [m_hdr].
  assert (H2 : h2 = set_prop h1 q).
  { unfold hdr_encode in H. rewrite K in H. destruct (is_enable_packet q); [destruct (h_packet h1) as [[? ?]|]; [|discriminate]|]; injection H as _ <-; reflexivity. }
  assert (R : encode env (encoded e) = Ok raw) by (apply repeat_others; auto).
  assert (T : entity_id (encoded e) = entity_id e) by (destruct e; reflexivity).
  rewrite R. cbn [bind].
  assert (Hq : h_prop h2 = q) by (rewrite H2; reflexivity).
  assert (C : (match key with Some pub => do enc <- encrypt_oaep env pub rnd raw; Ok (enc, set_prop h2 (enable_encrypt (h_prop h2)), BEnt (encoded (encoded e))) | None => Ok (raw, h2, BEnt (encoded (encoded e))) end) = Ok (bdy, h2, BEnt (encoded (encoded e)))).
  { destruct key as [pub|]; [|injection Eo as <-; reflexivity]. rewrite <- Eo. cbn [bind]. rewrite Hq, Q4.
    - rewrite H2. reflexivity.
    - unfold h0. cbn [set_prop h_prop]. rewrite enable_encrypt_testbit by lia. apply orb_true_r. }
  rewrite C. cbn [bind body_id m_body]. rewrite T, Hq. rewrite set_body_size_ok by auto. cbn [bind]. fold n. rewrite Q2.
  assert (G : hdr_encode (set_prop (set_id h2 (entity_id e)) q) = Ok (hb, h2)).
  { assert (H3 : set_prop (set_id h2 (entity_id e)) q = h2) by (rewrite H2; reflexivity). rewrite H3.
    assert (K2 : match h_packet h2 with Some _ => enable_packet (h_prop h2) | None => h_prop h2 end = q).
    { rewrite H2. cbn [set_prop h_packet h_prop]. unfold pk in Q3. change (h_packet h1) with (h_packet h0). destruct (h_packet h0); [apply Q3|]; reflexivity. }
    unfold hdr_encode in *. rewrite K in H. rewrite K2. assert (H4 : set_prop h2 q = h2) by (rewrite H2; reflexivity). rewrite H4.
    assert (F1 : h_packet h2 = h_packet h1) by (rewrite H2; reflexivity). assert (F2 : h_id h2 = h_id h1) by (rewrite H2; reflexivity).
    assert (F3 : h_icc h2 = h_icc h1) by (rewrite H2; reflexivity). assert (F4 : h_serial h2 = h_serial h1) by (rewrite H2; reflexivity). rewrite F1, F2, F3, F4.
    destruct (is_enable_packet q); [destruct (h_packet h1) as [[? ?]|]; [|discriminate]|]; injection H as <- _; reflexivity. }
  rewrite G. cbn [bind]. rewrite <- D. eexists. reflexivity.
Qed.
