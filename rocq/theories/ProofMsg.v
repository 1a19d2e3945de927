(** Whole messages: round trip, encryption, robustness. *)
From Verif Require Import Base LibBase Bits LibBits Bcd LibBcd Env Registry EntTerm EntPlat Message.
From Verif Require Import SpecFrame SpecGeo SpecEntity SpecRange SpecMsg Demo LibEntity LibSafe ProofFrame ProofHeader ProofRound3 ProofSafe ProofBody4.

Lemma entity_id_u16 e : is_u16 (entity_id e). Proof. destruct e; cbv; split; congruence. Qed.
Lemma set_is_mark p : Z.setbit p 13 = enable_packet p. Proof. reflexivity. Qed.
Lemma set_is_encrypt p : Z.setbit p 10 = enable_encrypt p. Proof. reflexivity. Qed.
Lemma size_u16 p n : is_u16 p -> 0 <= n <= 1023 -> is_u16 (p / 1024 * 1024 + n).
Proof. unfold is_u16. intros. lia. Qed.
Lemma wire_size p n pk : is_u16 p -> 0 <= n <= 1023 -> get_body_size (wire_prop p n pk) = n.
Proof.
  intros Hp Hn. assert (E : get_body_size (p / 1024 * 1024 + n) = n) by (rewrite get_body_size_mod; lia).
  unfold wire_prop, mark. destruct pk; auto. rewrite set_is_mark, get_body_size_mod. rewrite get_body_size_mod in E.
  transitivity ((p / 1024 * 1024 + n) mod 1024); [|exact E]. apply Z.bits_inj'. intros i Hi. change 1024 with (2 ^ 10).
  destruct (Z.ltb_spec i 10).
  - rewrite !Z.mod_pow2_bits_low by lia. rewrite enable_packet_testbit by lia. replace (i =? 13) with false by lia. apply orb_false_r.
  - rewrite !Z.mod_pow2_bits_high by lia. reflexivity.
Qed.
Lemma wire_bits p n pk i : 0 <= n <= 1023 -> 10 <= i -> Z.testbit (wire_prop p n pk) i = Z.testbit p i || ((i =? 13) && pk).
Proof.
  intros Hn Hi. unfold wire_prop, mark. destruct pk.
  - rewrite set_is_mark, enable_packet_testbit, div1024_testbit by lia. replace (i <? 10) with false by lia. rewrite andb_true_r. reflexivity.
  - rewrite div1024_testbit by lia. replace (i <? 10) with false by lia. rewrite andb_false_r, orb_false_r. reflexivity.
Qed.
Lemma sent_is_arrives h id n : n mod 65536 <= 1023 ->
  hdr_sent (set_prop (set_id h id) (h_prop h / 1024 * 1024 + n mod 65536)) = hdr_arrives h id n.
Proof. intros. unfold hdr_sent, hdr_arrives, set_prop, set_id, wire_prop, mark, has. cbn. destruct (h_packet h); reflexivity. Qed.
Lemma packet_flag h n : hdr_fits h -> n mod 65536 <= 1023 ->
  Z.testbit (h_prop h / 1024 * 1024 + n mod 65536) 13 = Z.testbit (h_prop h) 13.
Proof. intros. rewrite div1024_testbit by lia. reflexivity. Qed.

(** The frame of a body and how it is read. *)
Lemma carried_any env key rnd m id b' h0 bdy : is_u16 id -> body_id (m_body m) = Ok id -> enc_body env key rnd m = Ok (bdy, h0, b') ->
  hdr_fits h0 -> zlen bdy mod 65536 <= 1023 ->
  exists data, msg_encode env key rnd m = Ok (data, Message (hdr_arrives h0 id (zlen bdy)) b') /\
  forall priv, msg_decode env priv data =
    (do b <- decode_body env priv (hdr_arrives h0 id (zlen bdy)) bdy ; Ok (Message (hdr_arrives h0 id (zlen bdy)) b)).
Proof.
  intros Hi Bi E Hf Hn. pose proof Hf as (F1 & F2 & F3 & F4).
  assert (Hs : 0 <= zlen bdy mod 65536 <= 1023) by lia.
  pose proof (set_body_size_ok (h_prop h0) (zlen bdy mod 65536) F1 Hs) as S.
  set (h1 := set_prop (set_id h0 id) (h_prop h0 / 1024 * 1024 + zlen bdy mod 65536)).
  assert (P : h_packet h1 = None -> Z.testbit (h_prop h1) 13 = false).
  { cbn [h1 set_prop set_id h_packet h_prop]. intros K. rewrite packet_flag by auto. rewrite K in F4. auto. }
  destruct (hdr_encode_ok h1 P) as (hb & Eh). pose proof (sent_is_arrives h0 id (zlen bdy) Hn) as SA. fold h1 in SA. rewrite SA in Eh.
  destruct (msg_encode_ok env key rnd m bdy h0 b' id _ hb (hdr_arrives h0 id (zlen bdy)) E Bi S Eh) as (data & D & F).
  exists data. split; auto. intros priv.
  assert (W : hdr_wf h1).
  { split; [exact Hi|]. split; [apply size_u16; auto|]. split; [auto|]. split; [auto|].
    cbn [h1 set_prop set_id h_packet h_prop]. destruct (h_packet h0) as [[a b]|]; auto. rewrite packet_flag; auto. }
  destruct W as (W1 & W2 & W3 & W4 & W5).
  destruct (hdr_decode_encoded h1 hb _ bdy W1 W2 W4 W5 Eh) as (L & _).
  pose proof (hdr_roundtrip h1 hb _ bdy (conj W1 (conj W2 (conj W3 (conj W4 W5)))) Eh) as R.
  unfold msg_decode. assert (Hne : hb ++ bdy <> []).
  { intros K. apply (f_equal zlen) in K. rewrite zlen_app, zlen_nil, L in K. unfold hdr_size in K. pose proof (zlen_nonneg bdy). destruct (h_packet h1); lia. }
  rewrite (unframe_frame _ _ _ Hne F), Z.eqb_refl. cbn [bind].
  pose proof (zlen_nonneg bdy). replace (zlen (hb ++ bdy) <? header_size) with false.
  2:{ rewrite zlen_app, L. unfold hdr_size, header_size. destruct (h_packet h1); lia. }
  rewrite R. cbn [bind]. rewrite from_app; [reflexivity|]. rewrite L, is_enable_packet_bit.
  unfold hdr_arrives. cbn [h_prop]. rewrite wire_bits by lia. unfold hdr_size, header_size. cbn [h1 set_prop set_id h_packet].
  destruct (h_packet h0) as [[a b]|]; cbn [has]; [rewrite orb_true_r; reflexivity|]. rewrite F4. reflexivity.
Qed.
Lemma carried env key rnd m e h0 bdy : m_body m = BEnt e -> enc_body env key rnd m = Ok (bdy, h0, BEnt (encoded e)) ->
  hdr_fits h0 -> zlen bdy mod 65536 <= 1023 ->
  exists data, msg_encode env key rnd m = Ok (data, Message (hdr_arrives h0 (entity_id e) (zlen bdy)) (BEnt (encoded e))) /\
  forall priv, msg_decode env priv data =
    (do b <- decode_body env priv (hdr_arrives h0 (entity_id e) (zlen bdy)) bdy ; Ok (Message (hdr_arrives h0 (entity_id e) (zlen bdy)) b)).
Proof.
  intros Hb. apply carried_any; [apply entity_id_u16|]. rewrite Hb. reflexivity.
Qed.
Lemma arrives_size h id n : hdr_fits h -> n mod 65536 <= 1023 -> u16 n = get_body_size (h_prop (hdr_arrives h id n)).
Proof. intros (F & _) H. unfold hdr_arrives. cbn [h_prop]. rewrite wire_size; auto. lia. Qed.
Lemma arrives_flag h id n : n mod 65536 <= 1023 -> is_enable_encrypt (h_prop (hdr_arrives h id n)) = Z.testbit (h_prop h) 10.
Proof. intros H. unfold hdr_arrives. cbn [h_prop]. rewrite is_enable_encrypt_bit, wire_bits by lia. apply orb_false_r. Qed.

Lemma plain_message env rnd m e raw e' n :
  m_body m = BEnt e -> encode env e = Ok raw -> decode env (entity_id e) raw = Ok (e', n) ->
  hdr_fits (m_hdr m) -> Z.testbit (h_prop (m_hdr m)) 10 = false -> zlen raw mod 65536 <= 1023 ->
  exists data, msg_encode env None rnd m = Ok (data, Message (hdr_arrives (m_hdr m) (entity_id e) (zlen raw)) (BEnt (encoded e))) /\
  forall key, msg_decode env key data = Ok (Message (hdr_arrives (m_hdr m) (entity_id e) (zlen raw)) (BEnt e')).
Proof.
  intros Hb E D F B N. assert (Eb : enc_body env None rnd m = Ok (raw, m_hdr m, BEnt (encoded e))) by (unfold enc_body; rewrite Hb, E; reflexivity).
  destruct (carried env None rnd m e (m_hdr m) raw Hb Eb F N) as (data & ME & MD). exists data. split; auto. intros key. rewrite MD.
  unfold decode_body. rewrite <- (arrives_size _ (entity_id e) _ F N), Z.eqb_refl. cbn [negb].
  rewrite arrives_flag, B by auto. cbn [bind]. cbn [hdr_arrives h_id]. rewrite D. reflexivity.
Qed.
(** C07 *)
Lemma message_round_trip env rnd m e raw : m_body m = BEnt e -> encode env e = Ok raw -> wf env e -> boundary e = false ->
  hdr_fits (m_hdr m) -> Z.testbit (h_prop (m_hdr m)) 10 = false -> zlen raw <= 1023 ->
  exists data m', msg_encode env None rnd m = Ok (data, m') /\
  forall key, msg_decode env key data = Ok (Message (hdr_arrives (m_hdr m) (entity_id e) (zlen raw)) (BEnt (sent env e))).
Proof.
  intros Hb E W B F F10 N. destruct (round_trip env e W B) as (d & E' & D). rewrite E in E'. injection E' as <-.
  pose proof (zlen_nonneg raw).
  destruct (plain_message env rnd m e raw _ _ Hb E D F F10) as (data & ME & MD); [rewrite Z.mod_small; lia|]. eauto.
Qed.
Lemma arrives_fields h id n : hdr_fits h -> 0 <= n <= 1023 ->
  let a := hdr_arrives h id n in
  h_id a = id /\ h_icc a = h_icc h /\ h_serial a = h_serial h /\ h_packet a = h_packet h /\
  get_body_size (h_prop a) = n /\ is_u16 (h_prop a) /\
  (forall i, 10 <= i -> i <> 13 -> Z.testbit (h_prop a) i = Z.testbit (h_prop h) i) /\
  Z.testbit (h_prop a) 13 = has (h_packet h) || Z.testbit (h_prop h) 13.
Proof.
  intros F N a. unfold a, hdr_arrives. cbn [h_id h_icc h_serial h_packet h_prop]. rewrite Z.mod_small by lia.
  pose proof F as (F1 & F2 & F3 & F4).
  repeat (split; [reflexivity|]). split; [apply wire_size; auto; lia|]. split.
  { unfold wire_prop, mark. destruct (has (h_packet h)); [rewrite set_is_mark; apply enable_packet_u16|]; apply size_u16; auto; lia. }
  split.
  - intros i Hi Hn. rewrite wire_bits by lia. replace (i =? 13) with false by lia. apply orb_false_r.
  - rewrite wire_bits by lia. change (13 =? 13) with true. cbn [andb]. apply orb_comm.
Qed.
(** C53 *)
Lemma plain_distinct env r1 r2 m1 m2 e1 e2 d1 d2 data m1' m2' :
  m_body m1 = BEnt e1 -> m_body m2 = BEnt e2 -> encode env e1 = Ok d1 -> encode env e2 = Ok d2 ->
  wf env e1 -> wf env e2 -> boundary e1 = false -> boundary e2 = false ->
  hdr_fits (m_hdr m1) -> hdr_fits (m_hdr m2) ->
  Z.testbit (h_prop (m_hdr m1)) 10 = false -> Z.testbit (h_prop (m_hdr m2)) 10 = false -> zlen d1 <= 1023 -> zlen d2 <= 1023 ->
  msg_encode env None r1 m1 = Ok (data, m1') -> msg_encode env None r2 m2 = Ok (data, m2') ->
  sent env e1 = sent env e2 /\ hdr_arrives (m_hdr m1) (entity_id e1) (zlen d1) = hdr_arrives (m_hdr m2) (entity_id e2) (zlen d2).
Proof.
  intros B1 B2 E1 E2 W1 W2 Y1 Y2 F1 F2 K1 K2 N1 N2 M1 M2.
  destruct (message_round_trip env r1 m1 e1 d1 B1 E1 W1 Y1 F1 K1 N1) as (x1 & y1 & X1 & D1).
  destruct (message_round_trip env r2 m2 e2 d2 B2 E2 W2 Y2 F2 K2 N2) as (x2 & y2 & X2 & D2).
  rewrite M1 in X1. rewrite M2 in X2. injection X1 as <- <-. injection X2 as <- <-.
  specialize (D1 None). rewrite (D2 None) in D1. apply ProofBody2.ok_inj in D1. injection D1. intros. split; congruence.
Qed.

(** C09 *)
Lemma size_exact env rnd m e raw : m_body m = BEnt e -> encode env e = Ok raw -> hdr_fits (m_hdr m) ->
  (1023 < zlen raw mod 65536 -> msg_encode env None rnd m = Err ErrBodyTooLong) /\
  (zlen raw mod 65536 <= 1023 -> exists data m', msg_encode env None rnd m = Ok (data, m') /\
     get_body_size (h_prop (m_hdr m')) = zlen raw mod 65536).
Proof.
  intros Hb E F. assert (Eb : enc_body env None rnd m = Ok (raw, m_hdr m, BEnt (encoded e))) by (unfold enc_body; rewrite Hb, E; reflexivity). split.
  - intros N. unfold msg_encode. rewrite Eb. cbn [bind]. rewrite Hb. cbn [body_id bind]. rewrite set_body_size_err; [reflexivity|]. unfold u16. lia.
  - intros N. destruct (carried env None rnd m e (m_hdr m) raw Hb Eb F N) as (data & ME & MD). eexists. eexists. split; [exact ME|].
    cbn [m_hdr]. rewrite <- arrives_size; auto.
Qed.
Lemma oversize_false env : exists m e raw, m_body m = BEnt e /\ encode env e = Ok raw /\ zlen raw > 1023 /\
  exists data m', msg_encode env None 0 m = Ok (data, m').
Proof.
  set (e := E8900 (TData 1 (repeat 0 (Z.to_nat 65535)))).
  assert (E : encode env e = Ok (1 :: repeat 0 (Z.to_nat 65535))) by reflexivity.
  assert (L : zlen (1 :: repeat 0 (Z.to_nat 65535)) = 65536) by (rewrite zlen_cons; unfold zlen; rewrite repeat_length; lia).
  exists (Message (Header 0 0 1 1 None) (BEnt e)), e, (1 :: repeat 0 (Z.to_nat 65535)).
  split; [reflexivity|]. split; [exact E|]. split; [rewrite L; reflexivity|].
  destruct (size_exact env 0 (Message (Header 0 0 1 1 None) (BEnt e)) e (1 :: repeat 0 (Z.to_nat 65535)) eq_refl E) as (_ & H).
  { cbn [m_hdr]. unfold hdr_fits, is_u16. cbn [h_prop h_icc h_serial h_packet]. split; [lia|]. split; [lia|]. split; [lia|]. reflexivity. }
  destruct H as (d & m' & H & _); [rewrite L; cbv; congruence|]. eauto.
Qed.

(** ** Encryption *)
Lemma split_fuel f : forall data l, (0 < l)%nat -> (length data < f)%nat ->
  exists cs, split_loop f data l = Ok cs /\ concat cs = data /\ Forall (fun c => (0 < length c <= l)%nat) cs /\
    zlen cs = (zlen data + Z.of_nat l - 1) / Z.of_nat l.
Proof.
  induction f as [|f IH]; intros data l Hl Hf; [lia|]. cbn [split_loop].
  destruct (Nat.leb_spec l (length data)).
  - destruct (IH (skipn l data) l Hl) as (cs & -> & C & A & N); [rewrite skipn_length; lia|]. cbn [bind].
    exists (firstn l data :: cs). split; auto. split; [cbn [concat]; rewrite C; apply firstn_skipn|].
    split; [constructor; auto; rewrite firstn_length; lia|]. rewrite zlen_cons, N. unfold zlen. rewrite skipn_length, Nat2Z.inj_sub by auto.
    replace (Z.of_nat (length data) + Z.of_nat l - 1) with ((Z.of_nat (length data) - Z.of_nat l + Z.of_nat l - 1) + 1 * Z.of_nat l) by lia.
    rewrite Z.div_add by lia. lia.
  - destruct data as [|b data].
    + exists []. repeat split; auto. unfold zlen. cbn [length]. symmetry. apply Z.div_small. lia.
    + exists [b :: data]. split; auto. split; [apply app_nil_r|]. split; [constructor; [cbn in *; lia|constructor]|].
      unfold zlen. cbn [length] in *. change (Z.of_nat 1) with 1. apply Z.div_unique with (r := Z.of_nat (length data)); lia.
Qed.
Lemma split_ok data l : 0 < l -> exists cs, bytes_split data l = Ok cs /\ concat cs = data /\ Forall (fun c => 0 < zlen c <= l) cs /\
  zlen cs = (zlen data + l - 1) / l.
Proof.
  intros Hl. unfold bytes_split. replace (l <=? 0) with false by lia.
  destruct (split_fuel (S (length data)) data (Z.to_nat l)) as (cs & E & C & A & N); try lia. exists cs. split; auto. split; auto.
  split; [|rewrite N; f_equal; lia]. eapply Forall_impl; [|exact A]. cbn. unfold zlen. intros. lia.
Qed.
Lemma split_blocks f : forall cs l, (0 < l)%nat -> Forall (fun c => length c = l) cs -> (length cs < f)%nat ->
  split_loop f (concat cs) l = Ok cs.
Proof.
  induction f as [|f IH]; intros cs l Hl Hc Hf; [lia|]. cbn [split_loop]. destruct cs as [|c cs].
  - cbn. destruct (Nat.leb_spec l 0); [lia|]. reflexivity.
  - inversion Hc; subst. cbn [concat]. rewrite app_length. destruct (Nat.leb_spec (length c) (length c + length (concat cs))); [|lia].
    rewrite skipn_exact, firstn_exact. rewrite IH; auto. cbn in Hf. lia.
Qed.
Lemma block_split cs l : 0 < l -> Forall (fun c => zlen c = l) cs -> bytes_split (concat cs) l = Ok cs.
Proof.
  intros Hl Hc. unfold bytes_split. replace (l <=? 0) with false by lia.
  assert (Hc' : Forall (fun c : bytes => length c = Z.to_nat l) cs) by (eapply Forall_impl; [|exact Hc]; cbn; unfold zlen; intros; lia).
  apply split_blocks; auto; [lia|]. clear Hc. assert (length cs <= length (concat cs))%nat; [|lia].
  induction Hc'; cbn [concat length]; [lia|]. rewrite app_length. lia.
Qed.
Lemma enc_blocks env pub priv cs : rsa_pair env pub priv -> forall rnd, Forall (fun c => bytes_ok c /\ zlen c <= key_size env pub - 42) cs ->
  exists ds, enc_chunks env pub rnd cs = Ok (concat ds) /\ Forall bytes_ok ds /\ Forall (fun d => zlen d = key_size env pub) ds /\
    dec_chunks env priv ds = Ok (concat cs) /\ zlen ds = zlen cs.
Proof.
  intros (K1 & K2 & K3). induction cs as [|c cs IH]; intros rnd H; [exists []; repeat split; auto|]. inversion H as [|? ? [Hc Hl] H3]; subst.
  destruct (K3 rnd c Hc Hl) as (x & X1 & Xb & X2 & X3). destruct (IH (rnd + 1) H3) as (ds & D1 & Db & D2 & D3 & D4).
  exists (x :: ds). cbn [enc_chunks dec_chunks concat]. rewrite X1, D1, X3, D3, !zlen_cons, D4. cbn [bind]. auto.
Qed.
Lemma blocks_len (ds : list bytes) k : Forall (fun d => zlen d = k) ds -> zlen (concat ds) = zlen ds * k.
Proof. induction 1; [reflexivity|]. cbn [concat]. rewrite zlen_app, zlen_cons, IHForall, H. lia. Qed.
Lemma encryption env pub priv rnd raw : rsa_pair env pub priv -> bytes_ok raw ->
  exists ct, encrypt_oaep env pub rnd raw = Ok ct /\ bytes_ok ct /\ zlen ct = cipher_len env pub (zlen raw) /\ decrypt_oaep env priv ct = Ok raw.
Proof.
  intros P Br. pose proof P as (K1 & K2 & _). unfold encrypt_oaep, decrypt_oaep. replace (key_size env pub - 2 * 20 - 2) with (key_size env pub - 42) by lia.
  destruct (split_ok raw (key_size env pub - 42)) as (cs & E & C & A & N); [lia|]. rewrite E. cbn [bind].
  assert (Bc : Forall bytes_ok cs) by (rewrite <- C in Br; apply Forall_concat in Br; exact Br).
  destruct (enc_blocks env pub priv cs P rnd) as (ds & D1 & Db & D2 & D3 & D4); [apply Forall_forall; intros x Ix; rewrite Forall_forall in A, Bc; split; [apply Bc, Ix|specialize (A x Ix); cbn in A; lia]|].
  exists (concat ds). split; auto. split; [apply Forall_concat; exact Db|]. split.
  - pose proof (blocks_len ds _ D2) as B. unfold cipher_len. unfold bytes in *. rewrite B, D4, N. reflexivity.
  - rewrite K2, block_split by (auto; lia). cbn [bind]. rewrite D3, C. reflexivity.
Qed.
Lemma cipher_nonneg env pub n : 42 < key_size env pub -> 0 <= n -> 0 <= cipher_len env pub n.
Proof. intros. unfold cipher_len. apply Z.mul_nonneg_nonneg; [apply Z.div_pos; lia|lia]. Qed.
Lemma encrypted_fits h : hdr_fits h -> hdr_fits (encrypted h).
Proof.
  intros (F1 & F2 & F3 & F4). unfold hdr_fits, encrypted. cbn [h_prop h_icc h_serial h_packet]. split; [apply enable_encrypt_u16; auto|]. split; auto. split; auto.
  destruct (h_packet h); auto. rewrite set_is_encrypt, enable_encrypt_testbit by lia. rewrite F4. reflexivity.
Qed.
Lemma secret_message env pub priv rnd m e raw e' n : rsa_pair env pub priv ->
  m_body m = BEnt e -> encode env e = Ok raw -> bytes_ok raw -> decode env (entity_id e) raw = Ok (e', n) ->
  hdr_fits (m_hdr m) ->
  let k := cipher_len env pub (zlen raw) in
  k <= 1023 ->
  exists data m', msg_encode env (Some pub) rnd m = Ok (data, m') /\
  msg_decode env (Some priv) data = Ok (Message (hdr_arrives (encrypted (m_hdr m)) (entity_id e) k) (BEnt e')) /\
  msg_decode env None data = Err ErrDecryptMessageFailed.
Proof.
  intros P Hb E Br D F k N. pose proof P as (K1 & K2 & _).
  destruct (encryption env pub priv rnd raw P Br) as (ct & C1 & _ & C2 & C3). fold k in C2.
  pose proof (cipher_nonneg env pub (zlen raw) K1 (zlen_nonneg raw)) as Hk. fold k in Hk.
  assert (Eb : enc_body env (Some pub) rnd m = Ok (ct, encrypted (m_hdr m), BEnt (encoded e))).
  { unfold enc_body. rewrite Hb, E. cbn [bind]. rewrite C1. reflexivity. }
  pose proof (encrypted_fits _ F) as F'. assert (N' : zlen ct mod 65536 <= 1023) by (rewrite C2, Z.mod_small; lia).
  destruct (carried env (Some pub) rnd m e (encrypted (m_hdr m)) ct Hb Eb F' N') as (data & ME & MD). exists data. eexists. split; [exact ME|].
  assert (Fl : is_enable_encrypt (h_prop (hdr_arrives (encrypted (m_hdr m)) (entity_id e) (zlen ct))) = true).
  { rewrite arrives_flag by auto. unfold encrypted. cbn [h_prop]. rewrite set_is_encrypt, enable_encrypt_testbit by lia. apply orb_true_r. }
  rewrite !MD. unfold decode_body. rewrite <- (arrives_size _ (entity_id e) _ F' N'), Z.eqb_refl, Fl. cbn [negb]. rewrite C3. cbn [bind hdr_arrives h_id].
  rewrite D. rewrite C2. split; reflexivity.
Qed.
Lemma secret_too_long env pub priv rnd m e raw : rsa_pair env pub priv -> m_body m = BEnt e -> encode env e = Ok raw -> bytes_ok raw ->
  1023 < cipher_len env pub (zlen raw) mod 65536 -> msg_encode env (Some pub) rnd m = Err ErrBodyTooLong.
Proof.
  intros P Hb E Br N. destruct (encryption env pub priv rnd raw P Br) as (ct & C1 & _ & C2 & C3).
  unfold msg_encode, enc_body. rewrite Hb, E. cbn [bind]. rewrite C1. cbn [bind body_id]. rewrite set_body_size_err; [reflexivity|]. unfold u16. lia.
Qed.

(** ** Robustness *)
Lemma dec_chunks_ok env priv cs : (forall c m, bytes_ok c -> oaep_dec env priv c = Some m -> bytes_ok m) -> Forall bytes_ok cs ->
  match dec_chunks env priv cs with Ok d => bytes_ok d | Err e => e = ErrCrypt | Panic => False end.
Proof.
  intros H. induction cs as [|c cs IH]; intros F; cbn [dec_chunks]; [constructor|]. inversion F as [|? ? F1 F2]; subst. specialize (IH F2).
  destruct (oaep_dec env priv c) eqn:E; auto. destruct (dec_chunks env priv cs); cbn [bind]; auto. apply Forall_app. split; [exact (H c b F1 E)|exact IH].
Qed.
Lemma decrypt_ok env priv d : 0 < key_size env priv -> (forall c m, bytes_ok c -> oaep_dec env priv c = Some m -> bytes_ok m) -> bytes_ok d ->
  match decrypt_oaep env priv d with Ok d => bytes_ok d | Err e => e = ErrCrypt | Panic => False end.
Proof.
  intros K H B. unfold decrypt_oaep. destruct (split_ok d (key_size env priv) K) as (cs & -> & C & _). cbn [bind]. apply dec_chunks_ok; auto.
  subst d. apply Forall_concat in B. exact B.
Qed.
Lemma decode_body_ok env key h d : key_ok env key -> bytes_ok d ->
  match decode_body env key h d with
  | Ok b => b = BNil \/ exists e, b = BEnt e /\ entity_id e = h_id h
  | Err e => e = ErrDecryptMessageFailed
  | Panic => False
  end.
Proof.
  intros K Hd. unfold decode_body. destruct (negb _); [auto|].
  assert (G : forall p, bytes_ok p -> match (match decode env (h_id h) p with Ok (e, _) => Ok (BEnt e) | Err _ => Ok BNil | Panic => Panic end) with
     | Ok b => b = BNil \/ exists e, b = BEnt e /\ entity_id e = h_id h | Err e => e = ErrDecryptMessageFailed | Panic => False end).
  { intros p Hp. destruct (safe env (h_id h) p Hp) as (S & _). destruct (decode env (h_id h) p) as [[e n]| |] eqn:E; auto.
    right. exists e. split; auto. eapply same_id; eauto. }
  destruct (is_enable_encrypt (h_prop h)); [|apply G; auto]. destruct key as [p|]; cbn [key_ok] in K; [|reflexivity]. destruct K as (K1 & K2).
  pose proof (decrypt_ok env p d K1 K2 Hd) as Q. destruct (decrypt_oaep env p d); cbn [bind]; [apply G; auto|reflexivity|contradiction].
Qed.
Lemma reads_bytes w p : reads w p -> bytes_ok w -> bytes_ok p.
Proof.
  induction 1; intros B; auto.
  - inversion B as [|? ? _ B2]; subst. inversion B2; subst. constructor; [cbv; split; congruence|apply IHreads; auto].
  - inversion B as [|? ? _ B2]; subst. inversion B2; subst. constructor; [cbv; split; congruence|apply IHreads; auto].
  - inversion B; subst. constructor; auto. apply IHreads; auto.
Qed.
Lemma carries_bytes data p : carries data p -> bytes_ok data -> bytes_ok p.
Proof.
  intros (_ & w & v & -> & R & _) H. apply reads_bytes with w; auto. unfold bytes_ok in *. rewrite !Forall_app in H. tauto.
Qed.
Lemma split_checksum_panic mid : split_checksum mid = Panic <-> zlen mid <= 1.
Proof.
  destruct (last_case mid) as [->|(m1 & c0 & ->)]; [split; [cbv; congruence|reflexivity]|].
  destruct (last_case m1) as [->|(m2 & x & ->)]; [split; [cbv; congruence|reflexivity]|].
  split; [|zl; pose proof (zlen_nonneg m2); lia]. unfold split_checksum. rewrite index_app_last. cbn [bind]. rewrite <- app_assoc. cbn [app].
  rewrite index_app_last2. cbn [bind]. replace (m2 ++ [x; c0]) with ((m2 ++ [x]) ++ [c0]) at 1 2 by (rewrite <- app_assoc; reflexivity).
  intros H. exfalso. destruct (negb (x =? escape_byte)).
  - rewrite upto_app' in H by (zl; lia). discriminate.
  - rewrite !upto_app' in H by (zl; lia). destruct (c0 =? escape_suffix1), (c0 =? escape_suffix2); discriminate.
Qed.
Lemma unescape_nopanic n w : (length w <= n)%nat -> forall cs buf, unescape w cs buf <> Panic.
Proof.
  revert w. induction n; intros w Hn cs buf.
  - destruct w; cbn in Hn; [|lia]. discriminate.
  - destruct w as [|b w]; cbn; [discriminate|]. cbn in Hn. destruct (negb _); [apply IHn; lia|]. destruct w as [|c w]; [discriminate|]. cbn in Hn.
    destruct (c =? _); [apply IHn; lia|]. destruct (c =? _); [apply IHn; lia|discriminate].
Qed.
Lemma unframe_panic data : unframe data = Panic <-> exists x, data = [126; x; 126].
Proof.
  split.
  - intros H. assert (exists mid, data = [126] ++ mid ++ [126]) as (mid & ->).
    { unfold unframe in H. destruct (Z.ltb_spec (zlen data) 2); [discriminate|].
      destruct data as [|a data]; [zl_in H0; lia|]. destruct (last_case data) as [->|(mid & b & ->)]; [zl_in H0; lia|].
      change (index (a :: mid ++ [b]) 0) with (Ok a) in H.
      replace (index (a :: mid ++ [b]) (zlen (a :: mid ++ [b]) - 1)) with (Ok b : res Z) in H by (symmetry; apply (index_app_last (a :: mid) b)).
      cbn [bind] in H. unfold prefix_id in H. destruct (Z.eqb_spec a 126), (Z.eqb_spec b 126); cbn [negb orb] in H; try discriminate. subst. exists mid. reflexivity. }
    rewrite unframe_delimited in H. destruct (Z.eqb_spec (zlen mid) 0); [discriminate|].
    destruct (split_checksum mid) as [[w c]| |] eqn:E; cbn [bind] in H; [|discriminate|].
    + destruct (unescape w 0 []) as [[cs buf]| |] eqn:U; cbn [bind] in H; [|discriminate|exfalso; eapply unescape_nopanic; eauto].
      destruct ((zlen buf =? 0) || negb (cs =? c)); discriminate.
    + apply split_checksum_panic in E. destruct mid as [|x [|y mid]]; [exfalso; apply n; reflexivity|exists x; reflexivity|].
      pose proof (zlen_nonneg mid). zl_in E. lia.
  - intros (x & ->). exact (unframe_delimited [x]).
Qed.
Lemma header_inv p : hdr_decode p =
  match p with
  | a :: b :: c :: d :: i1 :: i2 :: i3 :: i4 :: i5 :: i6 :: s1 :: s2 :: r =>
      do icc <- parse_uint (bcd_to_string [i1; i2; i3; i4; i5; i6]) ;
      if Z.testbit (be16 c d) 13
      then match r with
           | x :: y :: z :: w :: _ => Ok (Header (be16 a b) (be16 c d) icc (be16 s1 s2) (Some (be16 x y, be16 z w)))
           | _ => Err ErrUnexpectedEOF
           end
      else Ok (Header (be16 a b) (be16 c d) icc (be16 s1 s2) None)
  | _ => Err ErrInvalidHeader
  end.
Proof.
  unfold hdr_decode, header_size. destruct (Z.ltb_spec (zlen p) 12) as [H|H].
  - do 12 (destruct p as [|? p]; [reflexivity|]). exfalso. pose proof (zlen_nonneg p). rewrite !zlen_cons in H. lia.
  - do 12 (destruct p as [|? p]; [exfalso; revert H; cbv; congruence|]). unfold rbind, rmap_err, rlift. cbn [r_u16].
    match goal with |- context[r_bytes 6 ?l] => assert (R : r_bytes 6 l = Ok ([z3; z4; z5; z6; z7; z8], z9 :: z10 :: p)) end.
    { unfold r_bytes. replace (_ <? 6) with false; [reflexivity|]. pose proof (zlen_nonneg p). rewrite !zlen_cons. lia. }
    rewrite R. destruct (parse_uint _); cbn [bind]; auto. cbn [r_u16]. rewrite is_enable_packet_bit.
    destruct (Z.testbit (be16 z1 z2) 13); [|reflexivity]. destruct p as [|x [|y [|? [|? ?]]]]; reflexivity.
Qed.
Lemma header_len p h : hdr_decode p = Ok h -> (if Z.testbit (h_prop h) 13 then 16 else 12) <= zlen p.
Proof.
  rewrite header_inv. do 12 (destruct p as [|? p]; [discriminate|]). destruct (parse_uint _); try discriminate. cbn [bind].
  pose proof (zlen_nonneg p). destruct (Z.testbit (be16 z1 z2) 13) eqn:B.
  - destruct p as [|x [|y [|? [|? p]]]]; try discriminate. intros K. injection K as <-. cbn [h_prop]. rewrite B, !zlen_cons. pose proof (zlen_nonneg p). cbv iota. lia.
  - intros K. injection K as <-. cbn [h_prop]. rewrite B, !zlen_cons. cbv iota. lia.
Qed.
Lemma header_nopanic p : hdr_decode p <> Panic.
Proof.
  rewrite header_inv. do 12 (destruct p as [|? p]; [discriminate|]).
  pose proof (parse_uint_nopanic (bcd_to_string [z3; z4; z5; z6; z7; z8])). destruct (parse_uint _); cbn [bind]; [|discriminate|congruence].
  destruct (Z.testbit _ 13); [|discriminate]. destruct p as [|x [|y [|? [|? p]]]]; discriminate.
Qed.
Lemma from_header p h : hdr_decode p = Ok h ->
  from p (if is_enable_packet (h_prop h) then header_size + 4 else header_size) = Ok (after_header h p).
Proof.
  intros H. apply header_len in H. unfold from, after_header, header_size. rewrite is_enable_packet_bit. destruct (Z.testbit (h_prop h) 13).
  - replace (_ || _) with false by lia. reflexivity.
  - replace (_ || _) with false by lia. reflexivity.
Qed.
(** A frame whose payload has a readable header. *)
Lemma decode_frame env key data p : carries data p ->
  msg_decode env key data =
  (do h <- hdr_decode p ; do b <- decode_body env key h (after_header h p) ; Ok (Message h b)).
Proof.
  intros C. unfold msg_decode. rewrite (proj2 (unframe_carries data p) C). cbn [bind].
  destruct (hdr_decode p) as [h|e|] eqn:E.
  - pose proof (header_len p h E). replace (zlen p <? header_size) with false by (unfold header_size; destruct (Z.testbit (h_prop h) 13); lia).
    cbn [bind]. rewrite (from_header p h E). reflexivity.
  - cbn [bind]. unfold header_size. destruct (Z.ltb_spec (zlen p) 12); auto. rewrite header_inv in E.
    do 12 (destruct p as [|? p]; [injection E as <-; reflexivity|]). exfalso. pose proof (zlen_nonneg p). rewrite !zlen_cons in H. lia.
  - exfalso. eapply header_nopanic; eauto.
Qed.
(** C05 *)
Lemma decode_panic env key data : key_ok env key -> bytes_ok data ->
  (msg_decode env key data = Panic <-> exists x, data = [126; x; 126]).
Proof.
  intros K Hd. split.
  - intros H. destruct (unframe data) as [p|e|] eqn:U.
    + assert (C : carries data p) by (apply unframe_carries; auto). rewrite (decode_frame env key data p C) in H.
      destruct (hdr_decode p) as [h|e|] eqn:E; cbn [bind] in H; try discriminate; [|exfalso; eapply header_nopanic; eauto].
      assert (Hb : bytes_ok (after_header h p)) by (apply bytes_ok_skipn, (carries_bytes data); auto).
      pose proof (decode_body_ok env key h _ K Hb) as Q. destruct (decode_body _ _ _ _); cbn [bind] in H; [discriminate|discriminate|contradiction].
    + unfold msg_decode in H. rewrite U in H. discriminate.
    + apply unframe_panic; auto.
  - intros H. apply unframe_panic in H. unfold msg_decode. rewrite H. reflexivity.
Qed.
(** C29 *)
Lemma isolated env key data p h : carries data p -> hdr_decode p = Ok h -> bytes_ok data ->
  Z.testbit (h_prop h) 10 = false ->
  msg_decode env key data = Ok (Message h
    (if zlen (after_header h p) mod 65536 =? get_body_size (h_prop h)
     then match decode env (h_id h) (after_header h p) with Ok (e, _) => BEnt e | _ => BNil end
     else BNil)).
Proof.
  intros C H Hd F. rewrite (decode_frame env key data p C), H. cbn [bind]. unfold decode_body. rewrite is_enable_encrypt_bit, F.
  change (u16 (zlen (after_header h p))) with (zlen (after_header h p) mod 65536). destruct (_ =? _); cbn [negb bind]; [|reflexivity].
  assert (Hb : bytes_ok (after_header h p)) by (apply bytes_ok_skipn, (carries_bytes data); auto).
  destruct (safe env (h_id h) _ Hb) as (S & _). destruct (decode env (h_id h) (after_header h p)) as [[e n]| |]; auto. contradiction.
Qed.
Lemma delivered env key data m : key_ok env key -> bytes_ok data -> msg_decode env key data = Ok m ->
  m_body m = BNil \/ exists e, m_body m = BEnt e /\ entity_id e = h_id (m_hdr m) /\ decoded_ok env e.
Proof.
  intros K Hd H. destruct (unframe data) as [p|e|] eqn:U.
  2,3: unfold msg_decode in H; rewrite U in H; discriminate.
  assert (C : carries data p) by (apply unframe_carries; auto). rewrite (decode_frame env key data p C) in H.
  destruct (hdr_decode p) as [h|e|] eqn:E; try discriminate. cbn [bind] in H.
  assert (Hb : bytes_ok (after_header h p)) by (apply bytes_ok_skipn, (carries_bytes data); auto).
  destruct (decode_body env key h (after_header h p)) as [b| |] eqn:D; try discriminate. cbn [bind] in H. injection H as <-. cbn [m_hdr m_body].
  unfold decode_body in D. destruct (negb _); [injection D as <-; auto|].
  assert (G : forall q, bytes_ok q -> (match decode env (h_id h) q with Ok (e, _) => Ok (BEnt e) | Err _ => Ok BNil | Panic => Panic end) = Ok b ->
     b = BNil \/ exists e, b = BEnt e /\ entity_id e = h_id h /\ decoded_ok env e).
  { intros q Hq Q. destruct (decode env (h_id h) q) as [[e n]| |] eqn:Q'; try discriminate; injection Q as <-; auto.
    right. exists e. split; auto. split; [eapply same_id; eauto|eapply in_range; eauto]. }
  destruct (is_enable_encrypt (h_prop h)); [|exact (G _ Hb D)]. destruct key as [pk|]; [|discriminate]. destruct K as (K1 & K2).
  pose proof (decrypt_ok env pk (after_header h p) K1 K2 Hb) as Q. destruct (decrypt_oaep env pk (after_header h p)); try discriminate. exact (G _ Q D).
Qed.
Lemma dropzc_first s c t : dropzc s = c :: t -> c <> 48.
Proof. induction s; cbn; [discriminate|]. destruct (Z.eqb_spec a 48); auto. intros K. injection K as -> ->. auto. Qed.
Lemma bcd_parse_pos d n : bytes_ok d -> parse_uint (bcd_to_string d) = Ok n -> 1 <= n.
Proof.
  intros Hb H. apply parse_uint_inv in H. destruct H as (ds & Hd & Hs & -> & Hn). rewrite bcd_to_string_dropzc in Hs by auto.
  destruct ds as [|x ds]; [congruence|]. cbn [chars map] in Hs. apply dropzc_first in Hs. inversion Hd; subst. rewrite dval_cons.
  pose proof (dval_bound ds H2). unfold is_digit in H1. assert (0 < 10 ^ zlen ds) by (apply Z.pow_pos_nonneg; [lia|apply zlen_nonneg]). nia.
Qed.
Lemma be16_u16 a b : is_byte a -> is_byte b -> is_u16 (be16 a b). Proof. unfold is_byte, is_u16, be16. lia. Qed.
(** A received header fits the wire format again. *)
Lemma header_fits p h : bytes_ok p -> hdr_decode p = Ok h ->
  hdr_fits h /\ is_u16 (h_id h) /\ has (h_packet h) = Z.testbit (h_prop h) 13.
Proof.
  rewrite header_inv. intros Hp H. do 12 (destruct p as [|? p]; [discriminate|]).
  destruct (parse_uint _) as [icc| |] eqn:P; try discriminate. cbn [bind] in H.
  do 12 (let X := fresh "X" in inversion Hp as [|? ? X Hp']; subst; clear Hp; rename Hp' into Hp).
  assert (Hi : bytes_ok [z3; z4; z5; z6; z7; z8]) by (repeat (constructor; [assumption|]); constructor).
  pose proof (bcd_parse_pos _ _ Hi P). pose proof (bcd_parse_bound _ _ Hi P). change (2 * zlen [z3; z4; z5; z6; z7; z8]) with 12 in *.
  destruct (Z.testbit (be16 z1 z2) 13) eqn:B.
  - destruct p as [|x [|y [|z' [|w p]]]]; try discriminate. injection H as <-.
    do 4 (let X := fresh "X" in inversion Hp as [|? ? X Hp']; subst; clear Hp; rename Hp' into Hp).
    unfold hdr_fits. cbn [h_prop h_icc h_serial h_packet h_id has]. repeat (split; [auto using be16_u16; fail|]).
    split; [|split; [auto using be16_u16|auto]]. split; [auto using be16_u16|]. split; [lia|]. auto using be16_u16.
  - injection H as <-. unfold hdr_fits. cbn [h_prop h_icc h_serial h_packet h_id has].
    split; [|split; [auto using be16_u16|auto]]. split; [auto using be16_u16|]. split; [lia|]. auto using be16_u16.
Qed.
Lemma received_header env key data m : bytes_ok data -> msg_decode env key data = Ok m ->
  hdr_fits (m_hdr m) /\ is_u16 (h_id (m_hdr m)) /\ has (h_packet (m_hdr m)) = Z.testbit (h_prop (m_hdr m)) 13.
Proof.
  intros Hd H. destruct (decode_carries env key data m H) as (p & C & E). apply (header_fits p); auto. apply (carries_bytes data); auto.
Qed.

Lemma no_plain env data m : bytes_ok data -> msg_decode env None data = Ok m -> Z.testbit (h_prop (m_hdr m)) 10 = true -> m_body m = BNil.
Proof.
  intros Hd H F. destruct (unframe data) as [p|e|] eqn:U.
  2,3: unfold msg_decode in H; rewrite U in H; discriminate.
  assert (C : carries data p) by (apply unframe_carries; auto). rewrite (decode_frame env None data p C) in H.
  destruct (hdr_decode p) as [h|e|] eqn:E; try discriminate. cbn [bind] in H. unfold decode_body in H.
  destruct (negb _); [injection H as <-; reflexivity|]. destruct (is_enable_encrypt (h_prop h)) eqn:B; [discriminate|].
  rewrite is_enable_encrypt_bit in B. cbn [bind] in H. destruct (decode env (h_id h) (after_header h p)) as [[e n]|e|]; cbn [bind] in H; try discriminate;
  injection H as <-; cbn [m_hdr] in F; congruence.
Qed.
(** The wrong private key, or damaged ciphertext: an error, not a body. *)
Lemma bad_cipher env priv data p h : key_ok env (Some priv) -> bytes_ok data -> carries data p -> hdr_decode p = Ok h ->
  Z.testbit (h_prop h) 10 = true -> zlen (after_header h p) mod 65536 = get_body_size (h_prop h) ->
  (forall d, decrypt_oaep env priv (after_header h p) <> Ok d) -> msg_decode env (Some priv) data = Err ErrDecryptMessageFailed.
Proof.
  intros (K1 & K2) Hd C E F N D. rewrite (decode_frame env (Some priv) data p C), E. cbn [bind]. unfold decode_body.
  change (u16 (zlen (after_header h p))) with (zlen (after_header h p) mod 65536). rewrite N, Z.eqb_refl, is_enable_encrypt_bit, F. cbn [negb].
  assert (Hb : bytes_ok (after_header h p)) by (apply bytes_ok_skipn, (carries_bytes data); auto).
  pose proof (decrypt_ok env priv (after_header h p) K1 K2 Hb) as Q. destruct (decrypt_oaep env priv (after_header h p)); [exfalso; eapply D; reflexivity|reflexivity|contradiction].
Qed.
Lemma into_used env key m data : msg_decode_into env key m data =
  match msg_decode env key data with
  | Ok m' => Ok (Message (m_hdr m') (match m_body m' with BNil => m_body m | b => b end), None)
  | Err e => Ok (m, Some e)
  | Panic => Panic
  end.
Proof.
  unfold msg_decode_into, msg_decode, decode_body. destruct (unframe data) as [buf|e|]; cbn [bind]; try reflexivity.
  destruct (_ <? _); try reflexivity. destruct (hdr_decode buf) as [h|e|]; cbn [bind]; try reflexivity.
  destruct (from buf _) as [rest|e|]; cbn [bind]; try reflexivity. destruct (negb _); [reflexivity|].
  destruct (is_enable_encrypt _); [destruct key as [k|]; [destruct (decrypt_oaep env k rest)|]|]; cbn [bind]; try reflexivity;
  destruct (decode env (h_id h) _) as [[e n]|e|]; reflexivity.
Qed.
(** So a Message that held another body can pair a new header with it. *)
Lemma used_stale : exists env m data m', bytes_ok data /\ msg_decode_into env None m data = Ok (m', None) /\
  exists e, m_body m' = BEnt e /\ entity_id e <> h_id (m_hdr m').
Proof.
  exists demo_env, (Message (Header 1 5 5 1 None) (BEnt (E0001 (T0001 1 2 3)))), [126; 15; 255; 0; 2; 1; 56; 0; 19; 128; 0; 0; 7; 9; 9; 95; 126].
  eexists. split; [repeat constructor; cbv; congruence|]. split; [vm_compute; reflexivity|]. eexists. split; [reflexivity|]. cbv. congruence.
Qed.
