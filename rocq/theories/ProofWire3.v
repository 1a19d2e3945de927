(** Whole messages have the layout of the standard, and whatever has it is decoded. *)
From Verif Require Import Base LibBase Bits LibBits Bcd LibBcd Decimal Env EntTerm EntPlat Registry Message SpecFrame SpecGeo SpecEntity SpecMsg SpecWire LibEntity Demo GoTime
  ProofFrame ProofHeader ProofRound3 ProofBody4 ProofMsg ProofWire ProofWire2.

Lemma type_number_id e : entity_id e = type_number e.
Proof. destruct e; reflexivity. Qed.
Lemma dval_inj a : forall b, length a = length b -> digits a -> digits b -> dval a = dval b -> a = b.
Proof.
  induction a as [|x a IH]; intros [|y b] L Ha Hb E; cbn in L; try lia; auto.
  inversion Ha as [|? ? Hx Ha']; subst. inversion Hb as [|? ? Hy Hb']; subst. rewrite !dval_cons in E.
  pose proof (dval_bound a Ha') as A. pose proof (dval_bound b Hb') as B.
  assert (Z : zlen a = zlen b) by (unfold zlen; lia). rewrite Z in *. assert (x = y) by nia. subst. f_equal. apply IH; auto. lia.
Qed.
Lemma dec_digits_len v n : 0 <= v < 10 ^ Z.of_nat (S n) -> (length (dec_digits v) <= S n)%nat.
Proof.
  intros H. destruct (dec_digits_spec v ltac:(lia)) as (D & E & [[-> ->]|(d & t & Ed & Hd)]); [cbn; lia|].
  rewrite Ed in *. pose proof (dval_lower d t D Hd) as L. rewrite E in L. unfold zlen in L. cbn [length].
  assert (10 ^ Z.of_nat (length t) < 10 ^ Z.of_nat (S n)) as P by lia. apply Z.pow_lt_mono_r_iff in P; lia.
Qed.
Lemma shows_icc v : 0 <= v < 10 ^ 12 -> shows (Dig (digits_of 12 v)) (string_to_bcd_n (format_uint v) 6).
Proof.
  intros H. destruct (dec_digits_spec v ltac:(lia)) as (D & E & _). pose proof (dec_digits_len v 11 H) as L.
  unfold format_uint. rewrite bcd_n_pairs by (auto; lia).
  replace (repeat 0 (2 * 6 - length (dec_digits v)) ++ dec_digits v) with (digits_of 12 v); [constructor|].
  apply dval_inj; [| apply digits_of_digits | |].
  - rewrite digits_of_len, app_length, repeat_length. lia.
  - apply Forall_app. split; auto. apply Forall_forall. intros x Hx. apply repeat_spec in Hx. subst. unfold is_digit. lia.
  - rewrite digits_of_val by auto. rewrite dval_repeat0. auto.
Qed.
Lemma mark_u16 p b : is_u16 p -> is_u16 (mark p 13 b).
Proof. intros H. apply (mark_lt p 13 b 16); [lia|exact H]. Qed.
Lemma ow_header h id n hb : hdr_fits h -> is_u16 id -> n mod 65536 <= 1023 ->
  hdr_encode (set_prop (set_id h id) (h_prop h / 1024 * 1024 + n mod 65536)) = Ok (hb, hdr_arrives h id n) ->
  on_wire (header_layout id (wire_prop (h_prop h) (n mod 65536) (has (h_packet h))) (h_icc h) (h_serial h) (h_packet h)) hb.
Proof.
  intros (F1 & F2 & F3 & F4) I N. unfold hdr_encode. cbv zeta. cbn [set_prop set_id h_packet h_prop h_id h_icc h_serial]. unfold header_layout, wire_prop.
  assert (U : is_u16 (h_prop h / 1024 * 1024 + n mod 65536)) by (apply size_u16; [auto|lia]).
  set (q := h_prop h / 1024 * 1024 + n mod 65536) in *. pose proof (mark_u16 q true U) as U'. unfold mark at 1 in U'. rewrite set_is_mark in U'.
  destruct (h_packet h) as [[a b]|]; cbn [has].
  - replace (is_enable_packet (enable_packet q)) with true by
      (rewrite is_enable_packet_bit, enable_packet_testbit by lia; rewrite orb_true_r; auto).
    intros E. apply (f_equal (fun r => match r with Ok (x, _) => x | _ => hb end)) in E. cbv beta iota in E. rewrite <- E. clear E. destruct F4. unfold mark. rewrite set_is_mark. apply ow_app; [|ow].
    cbn [concat]. rewrite app_nil_r. do 2 ow1. apply OwCons; [apply shows_icc; lia|]. ow.
  - rewrite is_enable_packet_bit. unfold q at 1. rewrite div1024_testbit by lia. cbn [Z.ltb Z.compare Pos.compare Pos.compare_cont]. rewrite F4.
    intros E. apply (f_equal (fun r => match r with Ok (x, _) => x | _ => hb end)) in E. cbv beta iota in E. rewrite <- E. clear E. unfold mark. rewrite app_nil_r.
    cbn [concat]. rewrite app_nil_r. do 2 ow1. apply OwCons; [apply shows_icc; lia|]. ow.
Qed.
Lemma plain_frame env rnd m e raw : m_body m = BEnt e -> encode env e = Ok raw -> hdr_fits (m_hdr m) -> zlen raw mod 65536 <= 1023 ->
  exists data m' hb, msg_encode env None rnd m = Ok (data, m') /\ frame (hb ++ raw) (xor_all (hb ++ raw)) data /\
  on_wire (header_layout (entity_id e) (wire_prop (h_prop (m_hdr m)) (zlen raw mod 65536) (has (h_packet (m_hdr m)))) (h_icc (m_hdr m)) (h_serial (m_hdr m)) (h_packet (m_hdr m))) hb.
Proof.
  intros Hb E F N. assert (Eb : enc_body env None rnd m = Ok (raw, m_hdr m, BEnt (encoded e))) by (unfold enc_body; rewrite Hb, E; reflexivity).
  pose proof F as (F1 & F2 & F3 & F4). assert (Hs : 0 <= zlen raw mod 65536 <= 1023) by lia.
  pose proof (set_body_size_ok (h_prop (m_hdr m)) (zlen raw mod 65536) F1 Hs) as S.
  set (h1 := set_prop (set_id (m_hdr m) (entity_id e)) (h_prop (m_hdr m) / 1024 * 1024 + zlen raw mod 65536)).
  assert (P : h_packet h1 = None -> Z.testbit (h_prop h1) 13 = false).
  { cbn [h1 set_prop set_id h_packet h_prop]. intros K. rewrite packet_flag by auto. rewrite K in F4. auto. }
  destruct (hdr_encode_ok h1 P) as (hb & Eh). pose proof (sent_is_arrives (m_hdr m) (entity_id e) (zlen raw) N) as SA. fold h1 in SA. rewrite SA in Eh.
  assert (Bi : body_id (m_body m) = Ok (entity_id e)) by (rewrite Hb; reflexivity).
  destruct (msg_encode_ok env None rnd m raw _ (BEnt (encoded e)) (entity_id e) _ hb _ Eb Bi S Eh) as (data & D & Fr).
  exists data. eexists. exists hb. split; [exact D|]. split; [exact Fr|]. apply ow_header; auto. apply entity_id_u16.
Qed.

(** C93 *)
Lemma on_wire_fun fs a b : on_wire fs a -> on_wire fs b -> a = b.
Proof. apply on_wire_unique. Qed.
Lemma encode_layout env e : wf env e -> exists d, encode env e = Ok d /\ on_wire (layout env e) d /\ forall d', on_wire (layout env e) d' -> d' = d.
Proof.
  intros W. destruct (layout_ok env e W) as (d & E & O). exists d. split; auto. split; auto. intros d' O'. eapply on_wire_unique; eauto.
Qed.
Lemma decode_layout env e d : wf env e -> on_wire (layout env e) d ->
  decode env (type_number e) d = if boundary e then Err PErrInvalidBody else Ok (sent env e, counted e d).
Proof.
  intros W O. rewrite <- type_number_id. destruct (body_exact env e W) as (d0 & E & D). destruct (layout_ok env e W) as (d1 & E1 & O1).
  rewrite E in E1. injection E1 as <-. rewrite (on_wire_unique _ _ _ O O1). exact D.
Qed.
(** C94 *)
Lemma message_layout env rnd m e : m_body m = BEnt e -> wf env e -> hdr_fits (m_hdr m) ->
  forall d, on_wire (layout env e) d -> zlen d <= 1023 ->
  exists data m' p, msg_encode env None rnd m = Ok (data, m') /\ frame p (xor_all p) data /\
    on_wire (header_layout (type_number e) (wire_prop (h_prop (m_hdr m)) (zlen d) (has (h_packet (m_hdr m))))
              (h_icc (m_hdr m)) (h_serial (m_hdr m)) (h_packet (m_hdr m)) ++ layout env e) p.
Proof.
  intros Hb W F d0 O0 N. destruct (layout_ok env e W) as (d & E & O). rewrite (on_wire_unique _ _ _ O0 O) in *. pose proof (zlen_nonneg d).
  destruct (plain_frame env rnd m e d Hb E F ltac:(rewrite Z.mod_small; lia)) as (data & m' & hb & ME & Fr & H1).
  exists data, m', (hb ++ d). split; [exact ME|]. split; [exact Fr|].
  rewrite Z.mod_small in H1 by lia. rewrite <- type_number_id. apply ow_app; auto.
Qed.
Lemma escaped_fun2 p : forall w v, escaped p w -> escaped p v -> w = v.
Proof.
  induction p as [|x p IH]; intros w v Hw Hv; inversion Hw; subst; inversion Hv; subst; auto; try congruence; repeat f_equal; auto.
Qed.
Lemma frame_fun p c a b : frame p c a -> frame p c b -> a = b.
Proof.
  intros (w & v & H1 & H2 & ->) (w' & v' & H3 & H4 & ->). rewrite (escaped_fun2 _ _ _ H1 H3), (escaped_fun2 _ _ _ H2 H4). reflexivity.
Qed.
Lemma decode_message_layout env key h e d p data : wf env e -> boundary e = false -> hdr_fits h -> Z.testbit (h_prop h) 10 = false ->
  on_wire (layout env e) d -> zlen d <= 1023 ->
  on_wire (header_layout (type_number e) (wire_prop (h_prop h) (zlen d) (has (h_packet h))) (h_icc h) (h_serial h) (h_packet h) ++ layout env e) p ->
  frame p (xor_all p) data ->
  msg_decode env key data = Ok (Message (hdr_arrives h (type_number e) (zlen d)) (BEnt (sent env e))).
Proof.
  intros W B F F10 O N Op Fr. destruct (layout_ok env e W) as (d1 & E & O1). rewrite (on_wire_unique _ _ _ O O1) in *. pose proof (zlen_nonneg d1).
  set (m := Message h (BEnt e)).
  destruct (message_round_trip env 0 m e d1 eq_refl E W B F F10 N) as (data' & m' & ME & MD).
  destruct (plain_frame env 0 m e d1 eq_refl E F ltac:(rewrite Z.mod_small; lia)) as (data2 & m2 & hb & ME2 & Fr2 & H2).
  rewrite ME in ME2. injection ME2 as <- <-. rewrite Z.mod_small in H2 by lia. rewrite <- type_number_id in *.
  pose proof (ow_app _ _ _ _ H2 O1) as OA. pose proof (on_wire_unique _ _ _ Op OA) as EP. subst p.
  rewrite (frame_fun _ _ _ _ Fr Fr2). apply MD.
Qed.

(** A search for media from 2024-01-01 00:00:00 to the leap day 2024-02-29 23:59:59, local time. *)
Definition demo_search : t8802 := T8802 2 1 0 (GoTime 1704038400 0 28800) (GoTime 1709222399 0 28800).
Lemma demo_search_wf : wf demo_env (E8802 demo_search).
Proof. split; [vm_compute; split; congruence|]. split; [vm_compute; split; congruence|]. split; [vm_compute; split; congruence|]. split; vm_compute; split; congruence. Qed.
Lemma demo_search_wire : on_wire [Num 1 2; Num 1 1; Num 1 0; Stamp 1704067200; Stamp 1709251199] [2; 1; 0; 36; 1; 1; 0; 0; 0; 36; 2; 41; 35; 89; 89].
Proof.
  assert (D : is_date 2024 1 1) by (vm_compute; repeat split; congruence). assert (D' : is_date 2024 2 29) by (vm_compute; repeat split; congruence).
  apply (OwCons _ _ [2]); [constructor; [reflexivity|repeat constructor; cbv; congruence|reflexivity]|].
  apply (OwCons _ _ [1]); [constructor; [reflexivity|repeat constructor; cbv; congruence|reflexivity]|].
  apply (OwCons _ _ [0]); [constructor; [reflexivity|repeat constructor; cbv; congruence|reflexivity]|].
  apply (OwCons _ _ [36; 1; 1; 0; 0; 0]); [apply (ShStamp 2024 1 1 0 0 0); auto; lia|].
  apply (OwCons _ [] [36; 2; 41; 35; 89; 89] []); [apply (ShStamp 2024 2 29 23 59 59); auto; lia|constructor].
Qed.
