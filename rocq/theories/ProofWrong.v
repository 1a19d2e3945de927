(** Exactly which error Message.Decode reports. *)
From Verif Require Import Base LibBase Bits LibBits Bcd LibBcd GoTime LibCalendar LibTime Decimal Env SpecGeo LibDec
  EntTerm EntPlat Registry Message SpecFrame SpecMsg SpecEntity SpecRange SpecBody LibEntity LibSafe ProofFrame ProofHeader ProofBody4 ProofMsg
  ProofRound ProofRound2 ProofSafe ProofBody3 SpecWire ProofWire ProofWire2 ProofWire3 SpecRead SpecArrive ProofRead ProofRead2 ProofRead3 ProofRead4 ProofRead5
  SpecWrong.

Lemma unframe_readable data p c : readable data p c ->
  unframe data = Panic /\ (exists x, data = [126; x; 126]) \/
  (forall x, data <> [126; x; 126]) /\ (p <> [] /\ c = xor_all p /\ unframe data = Ok p \/ (p = [] \/ c <> xor_all p) /\ unframe data = Err ErrInvalidCheckSum).
Proof.
  intros (w & v & -> & Hr & Hv).
  destruct (last_case w) as [->|(w' & x & ->)].
  - assert (p = []) as -> by (inversion Hr; reflexivity). destruct Hv as [->|[[-> ->]|[-> ->]]].
    + left. cbn [app]. split; [apply unframe_panic|]; eauto.
    + right. split; [intros; discriminate|]. right. auto.
    + right. split; [intros; discriminate|]. right. auto.
  - right. pose proof (reads_last _ _ _ _ Hr eq_refl) as Hx. split.
    { intros y K. apply (f_equal (@length Z)) in K. rewrite !app_length in K. cbn [length] in K. destruct Hv as [->|[[-> ->]|[-> ->]]]; cbn [length] in K; lia. }
    assert (Hp : p <> []). { intros ->. inversion Hr. destruct w'; discriminate. }
    rewrite app_assoc with (m := v), unframe_delimited.
    assert (Hz : zlen ((w' ++ [x]) ++ v) =? 0 = false).
    { zl. pose proof (zlen_nonneg w'). pose proof (zlen_nonneg v). lia. }
    rewrite Hz.
    assert (Hs : split_checksum ((w' ++ [x]) ++ v) = Ok (w' ++ [x], c)).
    { destruct Hv as [->|[[-> ->]|[-> ->]]].
      - apply split_checksum_raw; auto.
      - apply split_checksum_esc; auto.
      - apply split_checksum_esc; auto. }
    rewrite Hs. cbn [bind]. rewrite (unescape_reads _ _ Hr). cbn [bind rev app].
    rewrite Z.lxor_0_l. replace (zlen p =? 0) with false by (destruct p; [contradiction|]; zl; pose proof (zlen_nonneg p); lia). cbn [orb].
    destruct (Z.eqb_spec (xor_all p) c); [left|right]; auto.
Qed.
Lemma split_checksum_err mid e : split_checksum mid = Err e -> e = ErrInvalidMessage.
Proof.
  intros H. destruct (last_case mid) as [->|(m1 & c0 & ->)]; [discriminate|].
  destruct (last_case m1) as [->|(m2 & x & ->)].
  { unfold split_checksum in H. rewrite index_app_last in H. discriminate. }
  unfold split_checksum in H. rewrite index_app_last in H. cbn [bind] in H.
  rewrite <- app_assoc in H. cbn [app] in H. rewrite index_app_last2 in H. cbn [bind] in H.
  replace (m2 ++ [x; c0]) with ((m2 ++ [x]) ++ [c0]) in H by (rewrite <- app_assoc; reflexivity).
  rewrite !upto_app' in H by (zl; lia). cbn [bind] in H. destruct (negb _); [discriminate|].
  rewrite <- app_assoc in H. cbn [app] in H. rewrite !upto_app' in H by (zl; lia). cbn [bind] in H. destruct (_ =? _); [discriminate|]. destruct (_ =? _); [discriminate|]. congruence.
Qed.
Lemma unescape_err n w : (length w <= n)%nat -> forall cs buf e, unescape w cs buf = Err e -> e = ErrInvalidMessage.
Proof.
  revert w. induction n; intros w Hn cs buf e.
  - destruct w; cbn in Hn; [|lia]. discriminate.
  - destruct w as [|b w]; cbn; [discriminate|]. cbn in Hn. destruct (negb _); [apply IHn; lia|]. destruct w as [|c w]; [congruence|]. cbn in Hn.
    destruct (c =? _); [apply IHn; lia|]. destruct (c =? _); [apply IHn; lia|congruence].
Qed.
(** What is not readable is an invalid message. *)
Lemma unframe_trichotomy data : unframe data = Err ErrInvalidMessage \/ exists p c, readable data p c.
Proof.
  destruct (Z.ltb_spec (zlen data) 2) as [L|L]; [left; unfold unframe; replace (zlen data <? 2) with true by lia; reflexivity|].
  destruct data as [|a data]; [zl_in L; lia|]. destruct (last_case data) as [->|(mid & b & ->)]; [zl_in L; lia|].
  destruct (Z.eq_dec a 126) as [->|Na]; [destruct (Z.eq_dec b 126) as [->|Nb]|].
  - change (126 :: mid ++ [126]) with ([126] ++ mid ++ [126]). rewrite unframe_delimited. destruct (Z.eqb_spec (zlen mid) 0); [auto|].
    destruct (split_checksum mid) as [[w c]|e|] eqn:E; cbn [bind].
    + apply split_checksum_inv in E. destruct E as (v & -> & Hv).
      destruct (unescape w 0 []) as [[cs buf]|e|] eqn:U; cbn [bind].
      * right. apply (unescape_reads_inv (length w)) in U; [|lia]. destruct U as (q & Hq & _ & _). exists q, c, w, v. rewrite <- app_assoc. split; [auto|]. split; [auto|].
        unfold checksum_sent. destruct Hv as [[-> _]|Hv]; auto.
      * left. apply (unescape_err (length w)) in U; [|lia]. congruence.
      * exfalso. eapply unescape_nopanic; eauto.
    + left. apply split_checksum_err in E. congruence.
    + right. apply split_checksum_panic in E. destruct mid as [|x [|y mid]]; [exfalso; apply n; reflexivity| |].
      * exists [], x, [], [x]. split; [reflexivity|]. split; [constructor|left; reflexivity].
      * pose proof (zlen_nonneg mid). zl_in E. lia.
  - left. unfold unframe. replace (_ <? 2) with false by lia. change (index (126 :: mid ++ [b]) 0) with (Ok 126).
    replace (index (126 :: mid ++ [b]) (zlen (126 :: mid ++ [b]) - 1)) with (Ok b : res Z) by (symmetry; apply (index_app_last (126 :: mid) b)).
    cbn [bind]. unfold prefix_id. destruct (Z.eqb_spec b 126); [contradiction|]. reflexivity.
  - left. unfold unframe. replace (_ <? 2) with false by lia. change (index (a :: mid ++ [b]) 0) with (Ok a).
    replace (index (a :: mid ++ [b]) (zlen (a :: mid ++ [b]) - 1)) with (Ok b : res Z) by (symmetry; apply (index_app_last (a :: mid) b)).
    cbn [bind]. unfold prefix_id. destruct (Z.eqb_spec a 126); [contradiction|]. reflexivity.
Qed.

Lemma halves_in t x : In x (halves t) -> exists b, In b t /\ (x = b / 16 \/ x = b mod 16).
Proof.
  induction t as [|b t IH]; [intros []|]. cbn [halves In]. intros [<-|[<-|H]].
  - exists b. auto.
  - exists b. auto.
  - destruct (IH H) as (b' & H1 & H2). exists b'. auto.
Qed.
Lemma in_halves t b : In b t -> In (b / 16) (halves t) /\ In (b mod 16) (halves t).
Proof.
  induction t as [|a t IH]; [intros []|]. cbn [halves In]. intros [<-|H].
  - split; [left|right; left]; reflexivity.
  - destruct (IH H). auto.
Qed.
Lemma dval_zero ds : digits ds -> dval ds = 0 -> forall x, In x ds -> x = 0.
Proof.
  induction 1 as [|d ds Hd H IH]; [intros _ x []|]. rewrite dval_cons. pose proof (dval_bound ds H) as B. unfold is_digit in Hd.
  assert (0 < 10 ^ zlen ds) by (apply Z.pow_pos_nonneg; [lia|apply zlen_nonneg]). intros E. assert (d = 0) as -> by nia. intros x [<-|I]; [auto|]. apply IH; [lia|auto].
Qed.
Lemma parsed_halves t n : bytes_ok t -> zlen t = 6 -> parse_uint (bcd_to_string t) = Ok n -> 1 <= n < 10 ^ 12 /\ halves t = digits_of 12 n.
Proof.
  intros Ht L P. pose proof (bcd_parse_pos _ _ Ht P) as Pos. pose proof (bcd_parse_bound _ _ Ht P) as Bd. rewrite L in Bd. change (2 * 6) with 12 in Bd.
  split; [lia|]. apply icc_shows in P; auto.
  assert (E : t = pairs (digits_of 12 n)) by (inversion P; reflexivity). rewrite E. apply halves_pairs; [rewrite digits_of_len; reflexivity|].
  pose proof (digits_of_digits 12 n) as D. unfold digits in D. unfold nibbles. revert D. apply Forall_impl. unfold is_digit. lia.
Qed.
Lemma number_parse t : bytes_ok t -> zlen t = 6 ->
  (no_number t /\ parse_uint (bcd_to_string t) = Err ErrParse \/ ~ no_number t /\ exists n, parse_uint (bcd_to_string t) = Ok n).
Proof.
  intros Ht L.
  assert (PE : (exists n, parse_uint (bcd_to_string t) = Ok n) \/ parse_uint (bcd_to_string t) = Err ErrParse).
  { unfold parse_uint. destruct (bcd_to_string t); [auto|]. destruct (parse_acc _ _); eauto. }
  destruct PE as [(n & P)|P].
  - right. split; [|eauto]. destruct (parsed_halves t n Ht L P) as (B & HV). intros [(b & I & G)|Z].
    + pose proof (in_halves _ _ I) as [I1 I2]. rewrite HV in I1, I2. pose proof (digits_of_digits 12 n) as D. unfold digits in D. rewrite Forall_forall in D. apply D in I1, I2. unfold is_digit in *. lia.
    + assert (V : dval (halves t) = 0).
      { clear -Z. induction t as [|b t IH]; [reflexivity|]. cbn [halves]. rewrite (Z b) by (left; reflexivity). change (hi 0) with 0. change (lo 0) with 0.
        rewrite !dval_cons, IH; [lia|]. intros c I. apply Z. right. exact I. }
      rewrite HV, digits_of_val in V by (cbn; lia). lia.
  - left. split; [|exact P].
    destruct (Forall_Exists_dec (fun x => x <= 9) (fun x => match Z_le_gt_dec x 9 with left a => left a | right b => right (Zgt_not_le _ _ b) end) (halves t)) as [D|D].
    + assert (Dg : digits (halves t)).
      { pose proof (halves_nibbles t Ht) as N. unfold nibbles in N. unfold digits, is_digit. rewrite Forall_forall in *. intros x I. specialize (D x I). specialize (N x I). cbn beta in *. lia. }
      right. pose proof (dval_bound _ Dg) as B. pose proof (halves_length t) as HL. replace (zlen (halves t)) with 12 in B by (unfold zlen in *; lia).
      destruct (Z.eq_dec (dval (halves t)) 0) as [E|E].
      * intros b I. pose proof (in_halves _ _ I) as [I1 I2]. apply (dval_zero _ Dg E) in I1, I2. lia.
      * exfalso. set (n := dval (halves t)) in *.
        assert (HV : halves t = digits_of 12 n).
        { apply dval_inj; [rewrite digits_of_len; unfold zlen in L; lia|exact Dg|apply digits_of_digits|]. rewrite digits_of_val by (cbn; lia). reflexivity. }
        assert (ST : shows (Dig (digits_of 12 n)) t) by (rewrite <- HV; rewrite <- (pairs_halves t) at 2; constructor).
        rewrite (shows_unique _ _ _ ST (shows_icc n ltac:(lia))) in P. rewrite icc_parse in P by lia. discriminate.
    + left. apply Exists_exists in D as (x & I & G). apply halves_in in I as (b & I & E). exists b. split; auto. lia.
Qed.

Lemma flag_byte c d : is_byte d -> Z.testbit (be16 c d) 13 = Z.testbit c 5.
Proof.
  intros D. unfold is_byte in D. unfold be16. rewrite !Z.testbit_eqb by lia. change (2 ^ 13) with 8192. change (2 ^ 5) with 32. lia.
Qed.

Theorem decode_wrong env key data e : key_ok env key -> bytes_ok data ->
  (msg_decode env key data = Err e <-> wrong env key data e).
Proof.
  intros K Hd. split.
  - intros H. destruct (unframe_trichotomy data) as [U|(p & c & R)].
    + assert (e = ErrInvalidMessage) as -> by (unfold msg_decode in H; rewrite U in H; cbn [bind] in H; congruence).
      apply WrFrame. intros p c R. destruct (unframe_readable data p c R) as [(A & _)|(_ & [(_ & _ & A)|(_ & A)])]; congruence.
    + destruct (unframe_readable data p c R) as [(A & _)|(N & [(Hp & -> & A)|(B & A)])].
      * unfold msg_decode in H. rewrite A in H. discriminate.
      * apply unframe_carries in A. rewrite (decode_frame env key data p A) in H. pose proof (carries_bytes data p A Hd) as Hb.
        destruct (hdr_decode p) as [h|x|] eqn:E; cbn [bind] in H; [| |discriminate].
        -- pose proof E as E'. apply hdr_exact in E' as (hb & d & -> & Hh); auto. rewrite (after_is _ _ _ Hh) in H. unfold decode_body in H. rewrite get_body_size_mod in H. unfold u16 in H.
           destruct (Z.eqb_spec (zlen d mod 65536) (h_prop h mod 1024)) as [L|L]; cbn [negb bind] in H; [|discriminate]. rewrite is_enable_encrypt_bit in H.
           apply bytes_ok_app in Hb as [_ Hb].
           destruct (Z.testbit (h_prop h) 10) eqn:T.
           ++ destruct key as [priv|]; cbn [bind] in H.
              ** destruct K as [K1 K2]. destruct (decrypt_oaep env priv d) as [pl|x|] eqn:D; cbn [bind] in H.
                 --- exfalso. destruct (decode env (h_id h) pl) as [[? ?]|?|]; cbn [bind] in H; discriminate.
                 --- injection H as <-. eapply WrSealed; eauto. intros pr plain Q DC. injection Q as <-. apply decrypt_iff in DC; auto. congruence.
                 --- discriminate.
              ** injection H as <-. eapply WrSealed; eauto. intros pr plain Q. discriminate.
           ++ cbn [bind] in H. destruct (decode env (h_id h) d) as [[? ?]|?|]; discriminate.
        -- injection H as <-. rewrite header_inv in E.
           do 12 (destruct p as [|? p]; [injection E as <-; apply (WrShort _ _ _ _ A); cbv; reflexivity|]).
           assert (B6 : bytes_ok [z3; z4; z5; z6; z7; z8]).
           { unfold bytes_ok in *. rewrite Forall_forall in *. intros y I. apply Hb. cbn [In] in *. tauto. }
           destruct (number_parse _ B6 eq_refl) as [(NN & P)|(NN & n & P)]; rewrite P in E; cbn [bind] in E.
           ++ injection E as <-. apply (WrNumber env key data [z; z0; z1; z2] [z3; z4; z5; z6; z7; z8] (z9 :: z10 :: p)); auto. zl. pose proof (zlen_nonneg p). lia.
           ++ destruct (Z.testbit (be16 z1 z2) 13) eqn:T; [|discriminate].
              assert (T' : Z.testbit z1 5 = true).
              { rewrite <- T. symmetry. apply flag_byte. unfold bytes_ok in Hb. rewrite Forall_forall in Hb. apply Hb. cbn [In]. tauto. }
              assert (PL : x = ErrUnexpectedEOF /\ zlen p < 4) by (destruct p as [|? [|? [|? [|? p]]]]; try (injection E as <-; split; [reflexivity|cbv; reflexivity]); discriminate).
              destruct PL as (-> & PL). apply (WrPacket env key data z z0 z1 z2 [z3; z4; z5; z6; z7; z8] (z9 :: z10 :: p)); auto. zl. pose proof (zlen_nonneg p). lia.
      * assert (e = ErrInvalidCheckSum) as -> by (unfold msg_decode in H; rewrite A in H; cbn [bind] in H; congruence). eapply WrSum; eauto.
  - intros W. inversion W as [N|p c R B N|p C L|a t b C La Lt Lb NN|i1 i2 p1 p2 t b C Lt Lb NN T|hb d h C Hh L T S]; subst.
    + destruct (unframe_trichotomy data) as [U|(p & c & R)]; [unfold msg_decode; rewrite U; reflexivity|exfalso; eapply N; eauto].
    + destruct (unframe_readable data p c R) as [(_ & x & E)|(_ & [(P1 & P2 & A)|(_ & A)])].
      * exfalso. eapply N; eauto.
      * exfalso. destruct B; contradiction.
      * unfold msg_decode. rewrite A. reflexivity.
    + rewrite (decode_frame env key data p C), header_inv.
      do 12 (destruct p as [|? p]; [reflexivity|]). exfalso. pose proof (zlen_nonneg p). zl_in L. lia.
    + rewrite (decode_frame env key data _ C), header_inv. pose proof (carries_bytes data _ C Hd) as Hb. apply bytes_ok_app in Hb as [_ Hb]. apply bytes_ok_app in Hb as [Hb _].
      destruct (number_parse t Hb Lt) as [(_ & P)|(Q & _)]; [|contradiction].
      unfold zlen in La, Lt, Lb. do 4 (destruct a as [|? a]; [discriminate|]). destruct a; [|cbn [length] in La; lia].
      do 6 (destruct t as [|? t]; [discriminate|]). destruct t; [|cbn [length] in Lt; lia].
      do 2 (destruct b as [|? b]; [cbn [length] in Lb; lia|]). cbn [app]. rewrite P. reflexivity.
    + rewrite (decode_frame env key data _ C), header_inv. pose proof (carries_bytes data _ C Hd) as Hb. apply bytes_ok_app in Hb as [_ Hb]. apply bytes_ok_app in Hb as [Hb _].
      destruct (number_parse t Hb Lt) as [(Q & _)|(_ & n & P)]; [contradiction|].
      unfold zlen in Lt, Lb. do 6 (destruct t as [|? t]; [discriminate|]). destruct t; [|cbn [length] in Lt; lia].
      do 2 (destruct b as [|? b]; [cbn [length] in Lb; lia|]). cbn [app]. rewrite P. cbn [bind].
      assert (T' : Z.testbit (be16 p1 p2) 13 = true).
      { rewrite <- T. apply flag_byte. pose proof (carries_bytes data _ C Hd) as Hb'. unfold bytes_ok in Hb'. rewrite Forall_forall in Hb'. apply Hb'. cbn [app In]. tauto. }
      rewrite T'. destruct b as [|? [|? [|? [|? b]]]]; try reflexivity. cbn [length] in Lb. lia.
    + rewrite (decode_frame env key data _ C). pose proof (carries_bytes data _ C Hd) as Hb.
      assert (Eh : hdr_decode (hb ++ d) = Ok h) by (apply hdr_exact; eauto). rewrite Eh. cbn [bind]. rewrite (after_is _ _ _ Hh). unfold decode_body. rewrite get_body_size_mod. unfold u16.
      rewrite L, Z.eqb_refl. cbn [negb]. rewrite is_enable_encrypt_bit, T. destruct key as [priv|]; [|reflexivity]. destruct K as [K1 K2].
      apply bytes_ok_app in Hb as [_ Hb]. pose proof (decrypt_ok env priv d K1 K2 Hb) as Q.
      destruct (decrypt_oaep env priv d) as [pl|x|] eqn:D; [|reflexivity|contradiction].
      exfalso. eapply S; [reflexivity|]. apply decrypt_iff; eauto.
Qed.
Lemma frames_complete env key data : key_ok env key -> bytes_ok data ->
  ((exists m, message_in env key data m) /\ (forall m1 m2, message_in env key data m1 -> message_in env key data m2 -> m1 = m2) /\
     ~ crashing data /\ (forall e, ~ wrong env key data e)) \/
  (crashing data /\ (forall m, ~ message_in env key data m) /\ (forall e, ~ wrong env key data e)) \/
  ((exists e, wrong env key data e) /\ (forall e1 e2, wrong env key data e1 -> wrong env key data e2 -> e1 = e2) /\
     (forall m, ~ message_in env key data m) /\ ~ crashing data).
Proof.
  intros K Hd.
  assert (M : forall m, message_in env key data m <-> msg_decode env key data = Ok m) by (intros m; symmetry; apply message_exact; auto).
  assert (C : crashing data <-> msg_decode env key data = Panic) by (symmetry; apply decode_panic; auto).
  assert (W : forall e, wrong env key data e <-> msg_decode env key data = Err e) by (intros e; symmetry; apply decode_wrong; auto).
  setoid_rewrite M. setoid_rewrite C. setoid_rewrite W. destruct (msg_decode env key data) as [m|e|].
  - left. split; [eauto|]. split; [intros; congruence|]. split; [discriminate|]. intros; discriminate.
  - right. right. split; [eauto|]. split; [intros; congruence|]. split; [intros; discriminate|discriminate].
  - right. left. split; [reflexivity|]. split; intros; discriminate.
Qed.
