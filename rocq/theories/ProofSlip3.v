(** One byte of an encoded message changed on the way: no body is decoded; lemmas behind C168. *)
From Verif Require Import Base LibBase Bits LibBits ProofBits Bcd LibBcd Env Registry Message SpecFrame ProofFrame ProofHeader SpecMsg ProofMsg SpecSlip ProofSlip ProofSlip2.

Definition usual (x : Z) : Prop := x < 124 \/ 126 < x.
Lemma shorter_cons x P Q : x <> 124 -> shorter (x :: P) Q -> exists Q', Q = x :: Q' /\ shorter P Q'.
Proof.
  intros N ([|y a] & b & [[E ->]|[E ->]]); cbn [app] in *; injection E as E1 E2; try congruence; subst.
  - eexists. split; [reflexivity|]. exists a, b. left. auto.
  - eexists. split; [reflexivity|]. exists a, b. right. auto.
Qed.
Lemma longer_cons x P Q : x <> 125 -> x <> 126 -> shorter Q (x :: P) -> exists Q', Q = x :: Q' /\ shorter Q' P.
Proof.
  intros N N2 ([|y a] & b & [[-> E]|[-> E]]); cbn [app] in *; injection E as E1 E2; try congruence; subst.
  - eexists. split; [reflexivity|]. exists a, b. left. auto.
  - eexists. split; [reflexivity|]. exists a, b. right. auto.
Qed.
Lemma shorter_len P Q : shorter P Q -> zlen P = zlen Q + 1.
Proof. intros (a & b & [[-> ->]|[-> ->]]); zl; lia. Qed.
Lemma shorter_head d P Q : shorter (d :: P) Q -> exists d' Q', Q = d' :: Q' /\ (d' = d \/ d = 124 /\ (d' = 125 \/ d' = 126)).
Proof.
  intros ([|y a] & b & [[E ->]|[E ->]]); cbn [app] in *; injection E as E1 E2; subst.
  - eexists _, _. split; [reflexivity|]. auto.
  - eexists _, _. split; [reflexivity|]. auto.
  - eexists _, _. split; [reflexivity|]. auto.
  - eexists _, _. split; [reflexivity|]. auto.
Qed.
Lemma longer_head d P Q : shorter Q (d :: P) -> exists d' Q', Q = d' :: Q' /\ (d' = d \/ d' = 124 /\ (d = 125 \/ d = 126)).
Proof.
  intros ([|y a] & b & [[-> E]|[-> E]]); cbn [app] in *; injection E as E1 E2; subst.
  - eexists _, _. split; [reflexivity|]. auto.
  - eexists _, _. split; [reflexivity|]. auto.
  - eexists _, _. split; [reflexivity|]. auto.
  - eexists _, _. split; [reflexivity|]. auto.
Qed.
(** The first three bytes are as they were, the fourth nearly so. *)
Lemma slid_start i1 i2 c d R Q : usual i1 -> usual i2 -> usual c -> (shorter (i1 :: i2 :: c :: d :: R) Q \/ shorter Q (i1 :: i2 :: c :: d :: R)) ->
  exists d' R', Q = i1 :: i2 :: c :: d' :: R' /\
   (zlen R' = zlen R - 1 /\ (d' = d \/ d = 124 /\ (d' = 125 \/ d' = 126)) \/ zlen R' = zlen R + 1 /\ (d' = d \/ d' = 124 /\ (d = 125 \/ d = 126))).
Proof.
  unfold usual. intros U1 U2 U3 [S|S].
  - pose proof (shorter_len _ _ S) as L.
    apply shorter_cons in S as (Q1 & -> & S); [|lia]. apply shorter_cons in S as (Q2 & -> & S); [|lia]. apply shorter_cons in S as (Q3 & -> & S); [|lia].
    apply shorter_head in S as (d' & R' & -> & H). exists d', R'. split; [reflexivity|]. left. split; [|exact H]. revert L. zl. lia.
  - pose proof (shorter_len _ _ S) as L.
    apply longer_cons in S as (Q1 & -> & S); [|lia|lia]. apply longer_cons in S as (Q2 & -> & S); [|lia|lia]. apply longer_cons in S as (Q3 & -> & S); [|lia|lia].
    apply longer_head in S as (d' & R' & -> & H). exists d', R'. split; [reflexivity|]. right. split; [|exact H]. revert L. zl. lia.
Qed.
Lemma bit13 c d : 0 <= d < 256 -> Z.testbit (be16 c d) 13 = Z.odd (c / 32).
Proof.
  intros D. rewrite Z.testbit_odd, Z.shiftr_div_pow2 by lia. change (2 ^ 13) with 8192. unfold be16. f_equal. lia.
Qed.
Lemma entity_id_usual e : 0 <= entity_id e < 65536 /\ usual (entity_id e / 256) /\ usual (entity_id e mod 256).
Proof. unfold usual. destruct e; cbn [entity_id]; vm_compute; intuition discriminate. Qed.
Lemma after_header_len h q k : (if Z.testbit (h_prop h) 13 then 16 else 12) = k -> k <= zlen q -> zlen (after_header h q) = zlen q - k.
Proof.
  intros <- L. unfold after_header. unfold zlen in *. rewrite skipn_length. destruct (Z.testbit _ 13); lia.
Qed.
(** What encoding puts in front of the body *)
Lemma encoded_start env key rnd m e data m' : m_body m = BEnt e -> 0 <= h_prop (m_hdr m) < 16384 -> msg_encode env key rnd m = Ok (data, m') ->
  exists i1 i2 c d R (bdy : bytes), frame (i1 :: i2 :: c :: d :: R) (xor_all (i1 :: i2 :: c :: d :: R)) data /\ usual i1 /\ usual i2 /\ usual c /\
    0 <= c < 64 /\ 0 <= d < 256 /\ be16 c d mod 1024 = zlen bdy mod 65536 /\ zlen R + 4 = (if Z.testbit (be16 c d) 13 then 16 else 12) + zlen bdy.
Proof.
  intros B P H. apply msg_encode_inv in H as (bdy & h0 & b' & id & prop & hb & h2 & E1 & E2 & E3 & E4 & _ & F).
  rewrite B in E2. cbn [body_id] in E2. injection E2 as <-.
  assert (P0 : 0 <= h_prop h0 < 16384).
  { unfold enc_body in E1. rewrite B in E1. destruct (encode env e) as [raw| |]; try discriminate. cbn [bind] in E1. destruct key as [pub|].
    - destruct (encrypt_oaep env pub rnd raw); try discriminate. cbn [bind] in E1. injection E1 as _ <- _. cbn [set_prop h_prop].
      assert (U : is_u16 (enable_encrypt (h_prop (m_hdr m)))) by (apply enable_encrypt_u16; unfold is_u16; lia). unfold is_u16 in U. split; [lia|]. change 16384 with (2 ^ 14). apply bits_small; [lia|lia|].
      intros i I. rewrite enable_encrypt_testbit by lia. rewrite (testbit_small (h_prop (m_hdr m)) 14) by (try lia; change (2 ^ 14) with 16384; lia). lia.
    - injection E1 as _ <- _. exact P. }
  pose proof (set_body_size_inv _ _ _ E3) as S. assert (S0 : 0 <= u16 (zlen bdy) <= 1023) by (unfold u16 in *; lia).
  rewrite set_body_size_ok in E3 by (unfold is_u16; lia). injection E3 as <-.
  set (pr := h_prop h0 / 1024 * 1024 + u16 (zlen bdy)) in *. assert (PR : 0 <= pr < 16384) by (unfold pr; lia).
  set (h := set_prop (set_id h0 (entity_id e)) pr) in *. pose proof (hdr_encode_bytes h hb h2 E4) as [-> ->].
  assert (PK : h_packet h = None -> Z.testbit (h_prop h) 13 = false).
  { intros N. unfold hdr_encode in E4. rewrite N in E4. rewrite is_enable_packet_bit in E4. destruct (Z.testbit (h_prop h) 13) eqn:T; [exfalso; revert E4; discriminate|reflexivity]. }
  assert (Q : 0 <= h_prop (hdr_sent h) < 16384).
  { unfold hdr_sent. cbn [set_prop h_prop]. change (h_prop h) with pr. change (h_packet h) with (h_packet h0). destruct (h_packet h0); [|exact PR].
    assert (U : is_u16 (enable_packet pr)) by (apply enable_packet_u16; unfold is_u16; lia). unfold is_u16 in U. split; [lia|]. change 16384 with (2 ^ 14). apply bits_small; [lia|lia|].
    intros i I. rewrite enable_packet_testbit by lia. rewrite (testbit_small pr 14) by (try lia; change (2 ^ 14) with 16384; lia). lia. }
  assert (M : h_prop (hdr_sent h) mod 1024 = zlen bdy mod 65536).
  { rewrite <- get_body_size_mod. unfold hdr_sent. cbn [set_prop h_prop]. change (h_prop h) with pr. change (h_packet h) with (h_packet h0).
    assert (G : get_body_size pr = zlen bdy mod 65536) by (rewrite get_body_size_mod; unfold pr, u16 in *; lia).
    destruct (h_packet h0); [rewrite enable_packet_size by (unfold is_u16; lia)|]; exact G. }
  pose proof (hdr_sent_bit13 h PK) as T. destruct (entity_id_usual e) as (I0 & I1 & I2).
  set (pw := h_prop (hdr_sent h)) in *.
  exists (u8 (entity_id e / 256)), (u8 (entity_id e)), (u8 (pw / 256)), (u8 pw), ((string_to_bcd_n (format_uint (h_icc h)) 6 ++ w_u16 (h_serial h) ++ match h_packet h with Some (a, b) => w_u16 a ++ w_u16 b | None => [] end) ++ bdy), bdy.
  assert (BE : be16 (u8 (pw / 256)) (u8 pw) = pw) by (unfold be16, u8; lia). rewrite BE.
  split; [exact F|]. unfold usual in *. split; [unfold u8; lia|]. split; [unfold u8; lia|]. split; [unfold u8; lia|]. split; [unfold u8; lia|]. split; [unfold u8; lia|].
  split; [exact M|]. rewrite T. zl. rewrite icc_len, !zlen_w_u16. destruct (h_packet h) as [[? ?]|]; zl; rewrite ?zlen_w_u16; lia.
Qed.

Lemma no_wrong_body env key rnd m e data m' data' : m_body m = BEnt e -> 0 <= h_prop (m_hdr m) < 16384 ->
  msg_encode env key rnd m = Ok (data, m') -> mangled data data' ->
  forall env' key', (exists x, msg_decode env' key' data' = Err x) \/ exists h, msg_decode env' key' data' = Ok (Message h BNil).
Proof.
  intros B P H M env' key'. destruct (encoded_start env key rnd m e data m' B P H) as (i1 & i2 & c & d & R & bdy & F & U1 & U2 & U3 & C & D & SZ & LN).
  set (p := i1 :: i2 :: c :: d :: R) in *.
  destruct (unframe data') as [q|x|] eqn:U.
  - assert (CR : carries data' q) by (apply unframe_carries; exact U).
    destruct (mangled_noticed p data data' q F M CR) as [_ S].
    unfold p in S at 1 3. cbn [app] in S. apply slid_start in S as (d' & R' & Q & S); auto.
    rewrite (decode_frame env' key' data' q CR). destruct (hdr_decode q) as [h|x|] eqn:HD; cbn [bind]; [|left; eauto|exfalso; eapply header_nopanic; eauto].
    right. exists h.
    assert (D' : 0 <= d' < 256) by lia.
    assert (Q' : exists R'', q = i1 :: i2 :: c :: d' :: R'' /\ zlen R'' = zlen R' - 1).
    { destruct q as [|q1 [|q2 [|q3 [|q4 q]]]]; try (rewrite header_inv in HD; discriminate HD).
      cbn [app] in Q. injection Q as -> -> -> -> Q. exists q. split; [reflexivity|]. rewrite <- Q. zl. lia. }
    destruct Q' as (R'' & -> & L2).
    assert (HP : h_prop h = be16 c d').
    { rewrite header_inv in HD. do 8 (destruct R'' as [|? R'']; [discriminate|]). destruct (parse_uint _); try discriminate. cbn [bind] in HD.
      destruct (Z.testbit (be16 c d') 13); [do 4 (destruct R'' as [|? R'']; [discriminate|])|]; injection HD as <-; reflexivity. }
    pose proof (header_len _ h HD) as L. rewrite HP, (bit13 c d' D'), <- (bit13 c d D) in L.
    set (k := if Z.testbit (be16 c d) 13 then 16 else 12) in *.
    assert (AL : zlen (after_header h (i1 :: i2 :: c :: d' :: R'')) = zlen (i1 :: i2 :: c :: d' :: R'') - k).
    { apply after_header_len; [|exact L]. rewrite HP, (bit13 c d' D'), <- (bit13 c d D). reflexivity. }
    unfold decode_body. rewrite AL, get_body_size_mod, HP.
    assert (NE : u16 (zlen (i1 :: i2 :: c :: d' :: R'') - k) <> be16 c d' mod 1024).
    { unfold u16. unfold be16 in *. revert S. rewrite !zlen_cons. zl. intros S. clear - S L2 LN SZ D D' C. lia. }
    destruct (Z.eqb_spec (u16 (zlen (i1 :: i2 :: c :: d' :: R'') - k)) (be16 c d' mod 1024)); [contradiction|]. reflexivity.
  - left. exists x. unfold msg_decode. rewrite U. reflexivity.
  - exfalso. refine (mangled_long p data data' _ F M U). discriminate.
Qed.
