(** Encrypted frames. *)
From Verif Require Import Base LibBase Bits LibBits Bcd LibBcd Env EntTerm EntPlat Registry Message Sha1 Rsa.
From Verif Require Import SpecFrame SpecGeo SpecEntity SpecMsg SpecWire SpecRsa SpecSha SpecSealed LibEntity LibSafe Demo ProofFrame ProofHeader ProofRound3 ProofSafe ProofBody4 ProofMsg ProofMsg2 ProofWire ProofWire2 ProofWire3 ProofRsa ProofSha3.

(** ** Pieces *)
Lemma split_pieces f : forall data l, (0 < l)%nat -> (length data < f)%nat -> exists cs, split_loop f data l = Ok cs /\ pieces (Z.of_nat l) data cs.
Proof.
  induction f as [|f IH]; intros data l Hl Hf; [lia|]. cbn [split_loop].
  destruct (Nat.leb_spec l (length data)).
  - destruct (IH (skipn l data) l Hl) as (cs & -> & P); [rewrite skipn_length; lia|]. cbn [bind].
    exists (firstn l data :: cs). split; auto. rewrite <- (firstn_skipn l data) at 1. constructor; [|exact P]. unfold zlen. rewrite firstn_length. lia.
  - destruct data as [|b data]; [exists []; split; [reflexivity|constructor]|].
    exists [b :: data]. split; [reflexivity|]. constructor. unfold zlen. cbn [length] in *. lia.
Qed.
Lemma splits data l : 0 < l -> exists cs, bytes_split data l = Ok cs /\ pieces l data cs.
Proof.
  intros Hl. unfold bytes_split. replace (l <=? 0) with false by lia.
  destruct (split_pieces (S (length data)) data (Z.to_nat l)) as (cs & E & P); try lia. rewrite Z2Nat.id in P by lia. eauto.
Qed.
Lemma pieces_nil k ps : 0 < k -> pieces k [] ps -> ps = [].
Proof.
  intros Hk H. remember [] as d eqn:E. destruct H as [|p P|p m ps P H]; [reflexivity|subst p; cbn in P; lia|].
  apply app_eq_nil in E as [-> _]. cbn in P. lia.
Qed.
Lemma pieces_fun k d ps : 0 < k -> pieces k d ps -> forall qs, pieces k d qs -> ps = qs.
Proof.
  intros Hk. induction 1 as [|p P|p m ps P H IH]; intros qs Q.
  - symmetry. apply (pieces_nil k); auto.
  - remember p as d eqn:E. destruct Q as [|q Q|q m qs L Q]; [subst p; cbn in P; lia|subst; reflexivity|]. subst p. rewrite zlen_app in P. pose proof (zlen_nonneg m). lia.
  - inversion Q as [E|q Q' E|q m' qs' L Q' E].
    + exfalso. symmetry in E. apply app_eq_nil in E as [-> _]. cbn in P. lia.
    + exfalso. subst q. rewrite zlen_app in Q'. pose proof (zlen_nonneg m). lia.
    + assert (q = p /\ m' = m) as [-> ->].
      { assert (length q = length p) by (unfold zlen in *; lia). split.
        - apply (f_equal (firstn (length q))) in E. rewrite firstn_exact in E. rewrite E, H0. apply firstn_exact.
        - apply (f_equal (skipn (length q))) in E. rewrite skipn_exact in E. rewrite E, H0. apply skipn_exact. }
      f_equal. apply IH. exact Q'.
Qed.
Lemma pieces_each k d ps : 0 < k -> pieces k d ps -> d = concat ps /\ Forall (fun p => zlen p <= k) ps.
Proof.
  intros Hk. induction 1 as [|p P|p m ps P H (IH & A)]; cbn [concat]; [split; constructor|rewrite app_nil_r; split; [auto|constructor; [lia|constructor]]|].
  rewrite <- IH. split; auto. constructor; [lia|exact A].
Qed.
Lemma pieces_count k d ps : 0 < k -> pieces k d ps -> zlen ps = (zlen d + k - 1) / k.
Proof.
  intros Hk. induction 1 as [|p P|p m ps P H IH].
  - symmetry. apply Z.div_small. cbn. lia.
  - cbn. apply Z.div_unique with (r := zlen p - 1); lia.
  - rewrite zlen_cons, zlen_app, P, IH. replace (k + zlen m + k - 1) with (zlen m + k - 1 + 1 * k) by lia. rewrite Z.div_add by lia. lia.
Qed.

(** ** Sealing *)
Lemma seals env keys seeds pub k ps : takes_bytes k (rk_n (keys pub)) -> 2 <= rk_e (keys pub) <= 2 ^ 31 - 1 -> k < 2 ^ 32 ->
  (forall r, bytes_ok (seeds r) /\ zlen (seeds r) = 20) -> forall rnd, Forall (fun p => bytes_ok p /\ zlen p <= k - 42) ps ->
  exists cs, enc_chunks (rsa_env env keys seeds) pub rnd ps = Ok (concat cs) /\ length cs = length ps /\ Forall (fun c => zlen c = k) cs /\
    forall i, (i < length ps)%nat -> sealed_piece (rk_n (keys pub)) (rk_e (keys pub)) k (seeds (rnd + Z.of_nat i)) (nth i ps []) (nth i cs []).
Proof.
  intros T Er Hk S. induction ps as [|p ps IH]; intros rnd F; [exists []; split; [reflexivity|]; split; [reflexivity|]; split; [constructor|]; intros i Hi; cbn in Hi; lia|]. inversion F as [|? ? [Fb Fl] F']; subst.
  destruct (S rnd) as (S1 & S2). assert (S2' : length (seeds rnd) = 20%nat) by (unfold zlen in S2; lia).
  assert (X : exists c, rsa_enc (keys pub) (seeds rnd) p = Some c).
  { unfold rsa_enc. rewrite (size_takes k) by exact T. destruct T as (T0 & T). unfold rsa_usable.
    assert (0 < rk_n (keys pub)) by (assert (0 < 256 ^ (k - 1)) by (apply Z.pow_pos_nonneg; lia); lia).
    replace (2 <=? rk_e (keys pub)) with true by lia. replace (rk_e (keys pub) <=? 2147483647) with true by lia.
    replace (0 <? rk_n (keys pub)) with true by lia. replace (k - 42 <? zlen p) with false by lia. cbn [andb orb negb]. eauto. }
  destruct X as (c & X). pose proof (proj1 (encrypts _ k _ _ c T Er Hk S1 S2' Fb) X) as (_ & C1 & C2 & C3).
  destruct (IH (rnd + 1) F') as (cs & E & L & A & N). exists (c :: cs). cbn [enc_chunks concat]. cbn [rsa_env oaep_enc] in *. rewrite X, E. cbn [bind].
  split; [reflexivity|]. split; [cbn; lia|]. split; [constructor; auto|]. intros [|i] Hi; cbn [nth].
  - replace (rnd + Z.of_nat 0) with rnd by lia. split; auto.
  - replace (rnd + Z.of_nat (Datatypes.S i)) with (rnd + 1 + Z.of_nat i) by lia. apply N. cbn in Hi. lia.
Qed.
Lemma seals_text env keys seeds pub k d rnd : takes_bytes k (rk_n (keys pub)) -> 2 <= rk_e (keys pub) <= 2 ^ 31 - 1 -> 42 < k < 2 ^ 32 ->
  (forall r, bytes_ok (seeds r) /\ zlen (seeds r) = 20) -> bytes_ok d ->
  exists c, encrypt_oaep (rsa_env env keys seeds) pub rnd d = Ok c /\ zlen c = (zlen d + k - 43) / (k - 42) * k /\
    sealed (rk_n (keys pub)) (rk_e (keys pub)) k (fun i => seeds (rnd + i)) d c.
Proof.
  intros T Er Hk S B. unfold encrypt_oaep. cbn [rsa_env key_size]. rewrite (size_takes k) by exact T. replace (k - 2 * 20 - 2) with (k - 42) by lia.
  destruct (splits d (k - 42)) as (ps & E & P); [lia|]. rewrite E. cbn [bind]. destruct (pieces_each (k - 42) d ps ltac:(lia) P) as (C & A).
  assert (Bc : Forall bytes_ok ps) by (rewrite C in B; apply Forall_concat in B; exact B).
  destruct (seals env keys seeds pub k ps T Er ltac:(lia) S rnd) as (cs & E2 & L & A2 & N).
  { apply Forall_forall. intros x I. rewrite Forall_forall in A, Bc. auto. }
  exists (concat cs). split; [exact E2|]. split.
  - pose proof (blocks_len cs k A2) as BL. unfold bytes in *. rewrite BL. replace (zlen cs) with (zlen ps) by (unfold zlen; lia).
    pose proof (pieces_count (k - 42) d ps ltac:(lia) P) as PC. unfold bytes in PC. rewrite PC. replace (zlen d + (k - 42) - 1) with (zlen d + k - 43) by lia. reflexivity.
  - exists ps, cs. auto.
Qed.

(** ** Opening *)
Lemma opens_each env keys seeds priv k cs : takes_bytes k (rk_n (keys priv)) -> 2 <= rk_e (keys priv) <= 2 ^ 31 - 1 -> 0 < rk_d (keys priv) -> 42 <= k < 2 ^ 32 ->
  Forall (fun c => bytes_ok c /\ zlen c <= k) cs ->
  forall d, dec_chunks (rsa_env env keys seeds) priv cs = Ok d <-> exists ps, d = concat ps /\ Forall2 (opened_piece (rk_n (keys priv)) (rk_d (keys priv)) k) cs ps.
Proof.
  intros T Er Hd Hk. induction cs as [|c cs IH]; intros F d.
  - cbn [dec_chunks]. split; [intros [= <-]; exists []; split; [reflexivity|constructor]|]. intros (ps & -> & F2). inversion F2. reflexivity.
  - inversion F as [|? ? [Fb Fl] F']; subst. cbn [dec_chunks rsa_env oaep_dec]. pose proof (decrypts (keys priv) k c) as X. split.
    + destruct (rsa_dec (keys priv) c) as [p|] eqn:Ep; [|discriminate]. cbn [rsa_env oaep_dec] in IH.
      destruct (dec_chunks _ priv cs) as [r| |] eqn:Er2; try discriminate. cbn [bind]. intros [= <-].
      destruct (proj1 (IH F' r) eq_refl) as (ps & -> & F2). exists (p :: ps). split; [reflexivity|]. constructor; [|exact F2].
      destruct (proj1 (X p T Er Hd ltac:(lia) Fb) eq_refl) as (_ & _ & N & Q). split; auto.
    + intros (qs & -> & F2). inversion F2 as [|? p ? ps (N & O) F3]; subst.
      assert (Ep : rsa_dec (keys priv) c = Some p) by (apply (X p T Er Hd ltac:(lia) Fb); split; [lia|]; split; [lia|]; split; auto).
      rewrite Ep. rewrite (proj2 (IH F' (concat ps))) by eauto. reflexivity.
Qed.
Lemma opens_text env keys seeds priv k c : takes_bytes k (rk_n (keys priv)) -> 2 <= rk_e (keys priv) <= 2 ^ 31 - 1 -> 0 < rk_d (keys priv) -> 42 <= k < 2 ^ 32 -> bytes_ok c ->
  forall d, decrypt_oaep (rsa_env env keys seeds) priv c = Ok d <-> opened (rk_n (keys priv)) (rk_d (keys priv)) k c d.
Proof.
  intros T Er Hd Hk B d. unfold decrypt_oaep. cbn [rsa_env key_size]. rewrite (size_takes k) by exact T.
  destruct (splits c k) as (cs & E & P); [lia|]. rewrite E. cbn [bind]. destruct (pieces_each k c cs ltac:(lia) P) as (C & A).
  assert (Bc : Forall bytes_ok cs) by (rewrite C in B; apply Forall_concat in B; exact B).
  pose proof (opens_each env keys seeds priv k cs T Er Hd Hk) as X. rewrite X.
  2:{ apply Forall_forall. intros x I. rewrite Forall_forall in A, Bc. auto. }
  split; [intros (ps & -> & F); exists cs, ps; auto|]. intros (cs' & ps & P' & -> & F). rewrite (pieces_fun k c cs ltac:(lia) P cs' P'). eauto.
Qed.

(** ** Frames *)
Lemma sealed_sent env keys seeds pub k rnd m e d : takes_bytes k (rk_n (keys pub)) -> 2 <= rk_e (keys pub) <= 2 ^ 31 - 1 -> 42 < k < 2 ^ 32 ->
  (forall r, bytes_ok (seeds r) /\ zlen (seeds r) = 20) ->
  let env' := rsa_env env keys seeds in let size := (zlen d + k - 43) / (k - 42) * k in let h := m_hdr m in
  m_body m = BEnt e -> wf env' e -> hdr_fits h -> on_wire (layout env' e) d -> size <= 1023 ->
  exists data m' hd c, msg_encode env' (Some pub) rnd m = Ok (data, m') /\ frame (hd ++ c) (xor_all (hd ++ c)) data /\ zlen c = size /\
    on_wire (header_layout (type_number e) (wire_prop (Z.setbit (h_prop h) 10) size (has (h_packet h))) (h_icc h) (h_serial h) (h_packet h)) hd /\
    sealed (rk_n (keys pub)) (rk_e (keys pub)) k (fun i => seeds (rnd + i)) d c.
Proof.
  intros T Er Hk S env' size h Hb W F O N. destruct (layout_ok env' e W) as (d1 & E & O1). assert (d1 = d) as -> by (symmetry; eapply on_wire_unique; eauto). clear O1.
  assert (B : bytes_ok d) by exact (encode_bytes env' e d W E).
  destruct (seals_text env keys seeds pub k d rnd T Er Hk S B) as (c & EC & L & Se). fold env' in EC. fold size in L.
  assert (Eb : enc_body env' (Some pub) rnd m = Ok (c, encrypted h, BEnt (encoded e))) by (unfold enc_body; rewrite Hb, E; cbn [bind]; rewrite EC; reflexivity).
  pose proof (encrypted_fits h F) as F'. pose proof (zlen_nonneg c) as Hc. assert (N' : zlen c mod 65536 <= 1023) by (rewrite Z.mod_small; lia).
  pose proof F' as (F1 & F2 & F3 & F4). assert (Hs : 0 <= zlen c mod 65536 <= 1023) by lia.
  pose proof (set_body_size_ok (h_prop (encrypted h)) (zlen c mod 65536) F1 Hs) as SB.
  set (h1 := set_prop (set_id (encrypted h) (entity_id e)) (h_prop (encrypted h) / 1024 * 1024 + zlen c mod 65536)).
  assert (P : h_packet h1 = None -> Z.testbit (h_prop h1) 13 = false).
  { cbn [h1 set_prop set_id h_packet h_prop]. intros K. rewrite packet_flag by auto. rewrite K in F4. auto. }
  destruct (hdr_encode_ok h1 P) as (hb & Eh). pose proof (sent_is_arrives (encrypted h) (entity_id e) (zlen c) N') as SA. fold h1 in SA. rewrite SA in Eh.
  assert (Bi : body_id (m_body m) = Ok (entity_id e)) by (rewrite Hb; reflexivity).
  destruct (msg_encode_ok env' (Some pub) rnd m c _ (BEnt (encoded e)) (entity_id e) _ hb _ Eb Bi SB Eh) as (data & D & Fr).
  exists data. eexists. exists hb, c. split; [exact D|]. split; [exact Fr|]. split; [exact L|]. split; [|exact Se].
  rewrite <- type_number_id. pose proof (ow_header (encrypted h) (entity_id e) (zlen c) hb F' (entity_id_u16 e) N' Eh) as OW. rewrite Z.mod_small in OW by lia.
  rewrite L in OW. exact OW.
Qed.
(** How any frame with a written header is read. *)
Lemma frame_read env key h id hd c data : hdr_fits h -> is_u16 id -> zlen c <= 1023 ->
  on_wire (header_layout id (wire_prop (h_prop h) (zlen c) (has (h_packet h))) (h_icc h) (h_serial h) (h_packet h)) hd -> frame (hd ++ c) (xor_all (hd ++ c)) data ->
  msg_decode env key data = (do b <- decode_body env key (hdr_arrives h id (zlen c)) c ; Ok (Message (hdr_arrives h id (zlen c)) b)).
Proof.
  intros F I N O Fr. pose proof (zlen_nonneg c) as Hc. assert (N' : zlen c mod 65536 <= 1023) by (rewrite Z.mod_small; lia).
  pose proof F as (F1 & F2 & F3 & F4).
  set (h1 := set_prop (set_id h id) (h_prop h / 1024 * 1024 + zlen c mod 65536)).
  assert (P : h_packet h1 = None -> Z.testbit (h_prop h1) 13 = false).
  { cbn [h1 set_prop set_id h_packet h_prop]. intros K. rewrite packet_flag by auto. rewrite K in F4. auto. }
  destruct (hdr_encode_ok h1 P) as (hb & Eh). pose proof (sent_is_arrives h id (zlen c) N') as SA. fold h1 in SA. rewrite SA in Eh.
  pose proof (ow_header h id (zlen c) hb F I N' Eh) as OW. rewrite Z.mod_small in OW by lia. pose proof (on_wire_unique _ _ _ O OW) as ->. clear O OW.
  assert (W : hdr_wf h1).
  { split; [exact I|]. split; [apply size_u16; [exact F1|lia]|]. split; [auto|]. split; [auto|].
    cbn [h1 set_prop set_id h_packet h_prop]. destruct (h_packet h) as [[a b]|]; auto. rewrite packet_flag; auto. }
  destruct W as (W1 & W2 & W3 & W4 & W5).
  destruct (hdr_decode_encoded h1 hb _ c W1 W2 W4 W5 Eh) as (L & _).
  pose proof (hdr_roundtrip h1 hb _ c (conj W1 (conj W2 (conj W3 (conj W4 W5)))) Eh) as R.
  unfold msg_decode. assert (Hne : hb ++ c <> []).
  { intros K. apply (f_equal zlen) in K. rewrite zlen_app, zlen_nil, L in K. unfold hdr_size in K. destruct (h_packet h1); lia. }
  rewrite (unframe_frame _ _ _ Hne Fr), Z.eqb_refl. cbn [bind].
  replace (zlen (hb ++ c) <? header_size) with false.
  2:{ rewrite zlen_app, L. unfold hdr_size, header_size. destruct (h_packet h1); lia. }
  rewrite R. cbn [bind]. rewrite from_app; [reflexivity|]. rewrite L, is_enable_packet_bit.
  unfold hdr_arrives. cbn [h_prop]. rewrite wire_bits by lia. unfold hdr_size, header_size. cbn [h1 set_prop set_id h_packet].
  destruct (h_packet h) as [[a b]|]; cbn [has]; [rewrite orb_true_r; reflexivity|]. rewrite F4. reflexivity.
Qed.
Lemma sealed_read env keys seeds priv k h id hd c data : takes_bytes k (rk_n (keys priv)) -> 2 <= rk_e (keys priv) <= 2 ^ 31 - 1 -> 0 < rk_d (keys priv) -> 42 <= k < 2 ^ 32 ->
  let env' := rsa_env env keys seeds in
  hdr_fits h -> Z.testbit (h_prop h) 10 = true -> is_u16 id -> bytes_ok c -> zlen c <= 1023 ->
  on_wire (header_layout id (wire_prop (h_prop h) (zlen c) (has (h_packet h))) (h_icc h) (h_serial h) (h_packet h)) hd -> frame (hd ++ c) (xor_all (hd ++ c)) data ->
  (forall d, opened (rk_n (keys priv)) (rk_d (keys priv)) k c d ->
    msg_decode env' (Some priv) data = Ok (Message (hdr_arrives h id (zlen c)) (match decode env' id d with Ok (e, _) => BEnt e | _ => BNil end))) /\
  ((forall d, ~ opened (rk_n (keys priv)) (rk_d (keys priv)) k c d) -> msg_decode env' (Some priv) data = Err ErrDecryptMessageFailed) /\
  msg_decode env' None data = Err ErrDecryptMessageFailed.
Proof.
  intros T Er Hd Hk env' F F10 I B N O Fr. pose proof (zlen_nonneg c) as Hc. assert (N' : zlen c mod 65536 <= 1023) by (rewrite Z.mod_small; lia).
  assert (Fl : is_enable_encrypt (h_prop (hdr_arrives h id (zlen c))) = true) by (rewrite arrives_flag by auto; exact F10).
  assert (G : forall key, msg_decode env' key data = (do b <- decode_body env' key (hdr_arrives h id (zlen c)) c ; Ok (Message (hdr_arrives h id (zlen c)) b))) by
    (intros key; apply (frame_read env' key h id hd c data); auto).
  pose proof (opens_text env keys seeds priv k c T Er Hd Hk B) as X. fold env' in X.
  assert (K : 0 < rk_n (keys priv)) by (destruct T as (T0 & T); assert (0 < 256 ^ (k - 1)) by (apply Z.pow_pos_nonneg; lia); lia).
  pose proof (rsa_key_ok env keys seeds priv K) as (K1 & K2). fold env' in K1, K2. pose proof (decrypt_ok env' priv c K1 K2 B) as Q.
  split; [|split].
  - intros d Od. rewrite G. unfold decode_body. rewrite <- (arrives_size h id _ F N'), Z.eqb_refl, Fl. cbn [negb]. pose proof (proj2 (X d) Od) as Ed. rewrite Ed in *. cbn [bind hdr_arrives h_id].
    destruct (safe env' id d Q) as (Sf & _). destruct (decode env' id d) as [[e n]| |]; cbn [bind]; auto. contradiction.
  - intros No. rewrite G. unfold decode_body. rewrite <- (arrives_size h id _ F N'), Z.eqb_refl, Fl. cbn [negb].
    destruct (decrypt_oaep env' priv c) as [d| |] eqn:Ed; [exfalso; apply (No d), X; auto|reflexivity|contradiction].
  - rewrite G. unfold decode_body. rewrite <- (arrives_size h id _ F N'), Z.eqb_refl, Fl. reflexivity.
Qed.
Lemma sealed_arrives env keys seeds priv k h e hd c d data : takes_bytes k (rk_n (keys priv)) -> 2 <= rk_e (keys priv) <= 2 ^ 31 - 1 -> 0 < rk_d (keys priv) -> 42 <= k < 2 ^ 32 ->
  let env' := rsa_env env keys seeds in
  wf env' e -> boundary e = false -> hdr_fits h -> Z.testbit (h_prop h) 10 = true -> bytes_ok c -> zlen c <= 1023 ->
  on_wire (layout env' e) d -> opened (rk_n (keys priv)) (rk_d (keys priv)) k c d ->
  on_wire (header_layout (type_number e) (wire_prop (h_prop h) (zlen c) (has (h_packet h))) (h_icc h) (h_serial h) (h_packet h)) hd -> frame (hd ++ c) (xor_all (hd ++ c)) data ->
  msg_decode env' (Some priv) data = Ok (Message (hdr_arrives h (type_number e) (zlen c)) (BEnt (sent env' e))).
Proof.
  intros T Er Hd Hk env' W Bo F F10 B N O Od Oh Fr.
  destruct (sealed_read env keys seeds priv k h (type_number e) hd c data T Er Hd Hk F F10 ltac:(rewrite <- type_number_id; apply entity_id_u16) B N Oh Fr) as (R & _).
  specialize (R d Od). fold env' in R. rewrite R. pose proof (decode_layout env' e d W O) as D. rewrite Bo in D. rewrite D. reflexivity.
Qed.
(** A ciphertext is read in one way only. *)
Lemma opened_once (key : rsakey) k c d d' : takes_bytes k (rk_n key) -> 2 <= rk_e key <= 2 ^ 31 - 1 -> 0 < rk_d key -> 42 <= k < 2 ^ 32 -> bytes_ok c ->
  opened (rk_n key) (rk_d key) k c d -> opened (rk_n key) (rk_d key) k c d' -> d = d'.
Proof.
  intros T Er Hd Hk B O O'. pose proof (opens_text Demo.demo_env (fun _ => key) (fun _ => []) 0 k c T Er Hd Hk B) as X.
  apply X in O. apply X in O'. congruence.
Qed.
