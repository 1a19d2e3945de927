(** Exactness of the decoder of messages. *)
From Verif Require Import Base LibBase Bits LibBits Bcd LibBcd GoTime LibCalendar LibTime Decimal Env SpecGeo LibDec
  EntTerm EntPlat Registry Message SpecFrame SpecMsg SpecEntity SpecRange SpecBody LibEntity LibSafe ProofFrame ProofHeader ProofBody4 ProofMsg
  ProofRound ProofRound2 ProofSafe ProofBody3 SpecWire ProofWire ProofWire2 ProofWire3 SpecRead SpecArrive ProofRead ProofRead2 ProofRead3 ProofRead4 Demo.

Lemma icc_shows t n : bytes_ok t -> zlen t = 6 -> parse_uint (bcd_to_string t) = Ok n -> shows (Dig (digits_of 12 n)) t.
Proof.
  intros Ht L H. pose proof (bcd_parse_bound _ _ Ht H) as B. pose proof (bcd_parse_pos _ _ Ht H) as P. rewrite L in B. change (2 * 6) with 12 in B.
  rewrite bcd_string in H by auto. destruct (drop_zeros (halves t)) as (k & ns & E & Hz). rewrite E, dropzc_zeros in H by auto.
  apply parse_uint_inv in H as (ds & Hd & Hs & -> & _).
  assert (ns = ds) as ->. { clear - Hs. revert ds Hs. unfold chars. induction ns as [|x ns IH]; intros [|y ds] H; cbn in H; try discriminate; auto. injection H as H1 H2. f_equal; [lia|auto]. }
  replace (digits_of 12 (dval ds)) with (halves t); [rewrite <- (pairs_halves t) at 2; constructor|].
  rewrite E. pose proof (halves_length t) as Lh. rewrite E in Lh. symmetry. apply dval_inj; [| apply digits_of_digits | |].
  - rewrite digits_of_len. unfold zlen in L. lia.
  - apply Forall_app. split; auto. apply Forall_forall. intros x Hx. apply repeat_spec in Hx. subst. unfold is_digit. lia.
  - rewrite digits_of_val by (cbn; lia). rewrite dval_repeat0. auto.
Qed.
Lemma shows_16 a b : is_byte a -> is_byte b -> shows (Num 2 (be16 a b)) [a; b].
Proof.
  intros Ha Hb. constructor; [reflexivity|constructor; [exact Ha|constructor; [exact Hb|constructor]]|]. unfold be16. cbn. lia.
Qed.
Lemma num_u16 v b : shows (Num 2 v) b -> is_u16 v.
Proof.
  intros H. inversion H; subst. destruct b as [|x [|y [|]]]; try discriminate. cbn [value]. change (zlen [y]) with 1. change (zlen (@nil Z)) with 0.
  change (256 ^ 1) with 256. change (256 ^ 0) with 1. match goal with B : bytes_ok _ |- _ => apply bytes_ok_cons in B as [B1 B]; apply bytes_ok_cons in B as [B2 _] end.
  unfold is_u16, is_byte in *. lia.
Qed.
Lemma ow_inv f fs b : on_wire (f :: fs) b -> exists x y, b = x ++ y /\ shows f x /\ on_wire fs y.
Proof. intros H. inversion H; subst. eauto. Qed.
Lemma hdr_exact p h : bytes_ok p -> (hdr_decode p = Ok h <-> exists hb d, p = hb ++ d /\ header_is h hb).
Proof.
  intros Hp. split.
  - intros H. destruct (header_fits p h Hp H) as ((F1 & F2 & F3 & F4) & F5 & F6). rewrite header_inv in H.
    do 12 (destruct p as [|? p]; [discriminate|]).
    destruct (parse_uint _) as [icc| |] eqn:P; try discriminate. cbn [bind] in H.
    do 12 (let X := fresh "X" in inversion Hp as [|? ? X Hp']; subst; clear Hp; rename Hp' into Hp).
    assert (Hi : bytes_ok [z3; z4; z5; z6; z7; z8]) by (repeat (constructor; [assumption|]); constructor).
    pose proof (icc_shows _ _ Hi eq_refl P) as S.
    destruct (Z.testbit (be16 z1 z2) 13) eqn:B.
    + destruct p as [|x [|y [|z' [|w p]]]]; try discriminate. injection H as <-.
      do 4 (let X := fresh "X" in inversion Hp as [|? ? X Hp']; subst; clear Hp; rename Hp' into Hp).
      exists ([z; z0] ++ [z1; z2] ++ [z3; z4; z5; z6; z7; z8] ++ [z9; z10] ++ [x; y] ++ [z'; w] ++ []), p. split; [reflexivity|].
      split; [auto|]. split; [auto|]. cbn [h_id h_prop h_icc h_serial h_packet]. unfold header_layout. match goal with |- on_wire ?l _ => let l' := eval cbn [app] in l in change l with l' end.
      repeat first [apply OwCons; [first [exact S|apply shows_16; assumption]|]|apply OwNil].
    + injection H as <-. exists ([z; z0] ++ [z1; z2] ++ [z3; z4; z5; z6; z7; z8] ++ [z9; z10] ++ []), p. split; [reflexivity|].
      split; [auto|]. split; [auto|]. cbn [h_id h_prop h_icc h_serial h_packet]. unfold header_layout. match goal with |- on_wire ?l _ => let l' := eval cbn [app] in l in change l with l' end.
      repeat first [apply OwCons; [first [exact S|apply shows_16; assumption]|]|apply OwNil].
  - intros (hb & d & -> & (H1 & H2 & H3)). destruct h as [id prop icc serial pk]. cbn [h_id h_prop h_icc h_serial h_packet] in *.
    assert (U : is_u16 id /\ is_u16 prop /\ is_u16 serial /\ match pk with Some (a, b) => is_u16 a /\ is_u16 b | None => True end).
    { unfold header_layout in H3. cbn [app] in H3.
      destruct pk as [[a b]|]; repeat (apply ow_inv in H3 as (? & ? & _ & ? & H3));
      repeat match goal with S : shows (Num 2 _) _ |- _ => apply num_u16 in S end; tauto. }
    destruct U as (U1 & U2 & U3 & U4).
    assert (O : on_wire (header_layout id prop icc serial pk) (w_u16 id ++ w_u16 prop ++ string_to_bcd_n (format_uint icc) 6 ++ w_u16 serial ++
      (match pk with Some (a, b) => w_u16 a ++ w_u16 b | None => [] end))).
    { unfold header_layout. cbn [app]. do 2 ow1. apply OwCons; [apply shows_icc; lia|]. destruct pk as [[a b]|]; [destruct U4|]; ow. }
    rewrite (on_wire_unique _ _ _ H3 O). rewrite <- !app_assoc. rewrite hdr_read; auto.
    rewrite icc_parse by auto. reflexivity.
Qed.
Lemma num_len v b : shows (Num 2 v) b -> zlen b = 2.
Proof. intros H. inversion H; subst. unfold zlen. lia. Qed.
Lemma dig_len ds b : shows (Dig ds) b -> length ds = 12%nat -> zlen b = 6.
Proof. intros H L. inversion H; subst. pose proof (pairs_length ds ltac:(rewrite L; reflexivity)). unfold zlen. lia. Qed.
Lemma hdr_len h hb : header_is h hb -> zlen hb = if Z.testbit (h_prop h) 13 then 16 else 12.
Proof.
  intros (_ & H2 & H3). rewrite <- H2. unfold header_layout in H3. destruct (h_packet h) as [[a b]|]; cbn [has app] in *;
  repeat (apply ow_inv in H3 as (? & ? & -> & ? & H3)); inversion H3; subst;
  repeat match goal with S : shows (Num 2 _) _ |- _ => apply num_len in S end;
  match goal with S : shows (Dig _) _ |- _ => apply dig_len in S; [|rewrite digits_of_len; reflexivity] end;
  rewrite !zlen_app; change (zlen (@nil Z)) with 0; lia.
Qed.
Lemma after_is h hb d : header_is h hb -> after_header h (hb ++ d) = d.
Proof.
  intros H. apply hdr_len in H. unfold after_header. replace (if Z.testbit (h_prop h) 13 then 16%nat else 12%nat) with (length hb).
  - rewrite skipn_app, skipn_all, Nat.sub_diag. reflexivity.
  - unfold zlen in H. destruct (Z.testbit (h_prop h) 13); lia.
Qed.

Lemma chunks_iff env priv : 0 < key_size env priv -> forall f d plain, (length d < f)%nat ->
  ((do cs <- split_loop f d (Z.to_nat (key_size env priv)) ; dec_chunks env priv cs) = Ok plain <-> deciphered env priv d plain).
Proof.
  intros K. induction f as [|f IH]; intros d plain L; [lia|]. cbn [split_loop].
  set (k := Z.to_nat (key_size env priv)) in *. destruct (Nat.leb_spec k (length d)) as [B|B].
  - split.
    + intros H. destruct (split_loop f (skipn k d) k) as [cs| |] eqn:E; cbn [bind] in H; try discriminate.
      cbn [dec_chunks] in H. destruct (oaep_dec env priv (firstn k d)) as [x|] eqn:D; [|discriminate].
      destruct (dec_chunks env priv cs) as [r| |] eqn:R; cbn [bind] in H; try discriminate. injection H as <-.
      rewrite <- (firstn_skipn k d). apply DcMore; auto.
      * unfold zlen. rewrite firstn_length. lia.
      * apply IH; [rewrite skipn_length; lia|]. rewrite E. exact R.
    + intros H. inversion H; subst.
      * cbn in B. lia.
      * unfold zlen in *. lia.
      * match goal with D : deciphered _ _ _ _ |- _ => apply IH in D; [|rewrite app_length in L; unfold zlen in *; lia] end.
        assert (F : firstn k (b ++ d0) = b /\ skipn k (b ++ d0) = d0).
        { replace k with (length b) by (unfold zlen in *; lia). rewrite firstn_app, skipn_app, firstn_all, skipn_all, Nat.sub_diag. cbn. rewrite app_nil_r. auto. }
        destruct F as [-> ->]. destruct (split_loop f d0 k) as [cs| |]; cbn [bind] in *; try discriminate. cbn [dec_chunks].
        match goal with O : oaep_dec _ _ _ = _ |- _ => rewrite O end. match goal with O : dec_chunks _ _ _ = _ |- _ => rewrite O end. reflexivity.
  - destruct d as [|x d].
    + cbn. split; [intros H; injection H as <-; constructor|]. intros H. inversion H; subst; auto; [congruence|].
      match goal with E : ?b ++ ?d = [] |- _ => apply app_eq_nil in E as [-> ->] end. change (zlen (@nil Z)) with 0 in *. lia.
    + cbn [bind dec_chunks]. split.
      * intros H. destruct (oaep_dec env priv (x :: d)) as [y|] eqn:D; [|discriminate]. cbn [bind] in H. rewrite app_nil_r in H. injection H as <-.
        apply DcLast; auto; [discriminate|unfold zlen; lia].
      * intros H. inversion H; subst.
        -- match goal with O : oaep_dec _ _ _ = _ |- _ => rewrite O end. cbn [bind]. rewrite app_nil_r. reflexivity.
        -- exfalso. match goal with E : ?b ++ ?r = x :: d |- _ => rewrite <- E in B; rewrite app_length in B end. unfold zlen in *. lia.
Qed.
Lemma decrypt_iff env priv d plain : 0 < key_size env priv -> (decrypt_oaep env priv d = Ok plain <-> deciphered env priv d plain).
Proof.
  intros K. unfold decrypt_oaep, bytes_split. destruct (Z.leb_spec (key_size env priv) 0); [lia|]. apply chunks_iff; auto.
Qed.
Lemma opened_iff env key h d plain : key_ok env key ->
  ((if is_enable_encrypt (h_prop h) then
      match key with
      | None => Err ErrDecryptMessageFailed
      | Some priv => match decrypt_oaep env priv d with Ok p => Ok p | Err _ => Err ErrDecryptMessageFailed | Panic => Panic end
      end
    else Ok d) = Ok plain <-> opened env key h d plain).
Proof.
  intros K. unfold opened. rewrite is_enable_encrypt_bit. destruct (Z.testbit (h_prop h) 10).
  - destruct key as [priv|].
    + destruct K as [K _]. rewrite <- (decrypt_iff env priv d plain K) || idtac. split.
      * intros H. exists priv. split; auto. apply decrypt_iff; auto. destruct (decrypt_oaep env priv d); congruence.
      * intros (p & E & H). injection E as <-. apply decrypt_iff in H; auto. rewrite H. reflexivity.
    + split; [discriminate|]. intros (p & E & _). discriminate.
  - split; congruence.
Qed.
Lemma opened_bytes env key h d plain : key_ok env key -> bytes_ok d -> opened env key h d plain -> bytes_ok plain.
Proof.
  intros K Hd H. apply opened_iff in H; auto. destruct (is_enable_encrypt (h_prop h)); [|congruence].
  destruct key as [priv|]; [|discriminate]. destruct K as [K1 K2]. pose proof (decrypt_ok env priv d K1 K2 Hd) as D.
  destruct (decrypt_oaep env priv d); try discriminate. congruence.
Qed.
Lemma body_iff env typ d b : bytes_ok d ->
  (match decode env typ d with Ok (e, _) => Ok (BEnt e) | Err _ => Ok BNil | Panic => Panic end = Ok b <-> body_is env typ d b).
Proof.
  intros Hd. pose proof (decode_exact env typ d) as X. destruct (safe env typ d Hd) as [NP _]. split.
  - destruct (decode env typ d) as [[e n]|x|] eqn:E; intros H; try discriminate; injection H as <-.
    + destruct (proj1 (X e n Hd) eq_refl) as (T & L & r & Tk & _). split; auto. split; auto. exists r. auto.
    + intros e (T & L & r & Tk). assert (Q : Err x = Ok (e, tally e d r)) by (apply X; auto; split; auto; split; auto; exists r; auto). discriminate.
  - destruct b as [|i|e]; cbn [body_is].
    + intros H. destruct (decode env typ d) as [[e n]|x|] eqn:E; try contradiction; auto.
      exfalso. apply (H e). destruct (proj1 (X e n Hd) eq_refl) as (T & L & r & Tk & _). split; auto. split; auto. exists r. auto.
    + contradiction.
    + intros (T & L & r & Tk). assert (Q : decode env typ d = Ok (e, tally e d r)) by (apply X; auto; split; auto; split; auto; exists r; auto). rewrite Q. reflexivity.
Qed.
Lemma decode_refuses env typ d : bytes_ok d ->
  ((exists x, decode env typ d = Err x) <-> forall e, ~ begins_with env typ e d).
Proof.
  intros Hd. pose proof (decode_exact env typ d) as X. destruct (safe env typ d Hd) as [NP _]. split.
  - intros (x & E) e (T & L & r & Tk). assert (Q : decode env typ d = Ok (e, tally e d r)) by (apply X; auto; split; auto; split; auto; exists r; auto). congruence.
  - intros H. destruct (decode env typ d) as [[e n]|x|] eqn:E; [|eauto|contradiction]. exfalso. apply (H e).
    destruct (proj1 (X e n Hd) eq_refl) as (T & L & r & Tk & _). split; auto. split; auto. exists r. auto.
Qed.
Lemma message_exact env key data m : key_ok env key -> bytes_ok data ->
  (msg_decode env key data = Ok m <-> exists hb d, carries data (hb ++ d) /\ is_message env key hb d m).
Proof.
  intros K Hd. split.
  - intros H. destruct (decode_carries env key data m H) as (p & C & E). pose proof (carries_bytes data p C Hd) as Hp.
    apply hdr_exact in E as (hb & d & -> & Hh); auto. exists hb, d. split; auto. split; auto.
    apply bytes_ok_app in Hp as [Hb Hd'].
    rewrite (decode_frame env key data _ C) in H. assert (Eh : hdr_decode (hb ++ d) = Ok (m_hdr m)) by (apply hdr_exact; [apply bytes_ok_app; auto|eauto]).
    rewrite Eh in H. cbn [bind] in H. rewrite (after_is _ _ _ Hh) in H. unfold decode_body in H. rewrite get_body_size_mod in H. unfold u16 in H.
    destruct (Z.eqb_spec (zlen d mod 65536) (h_prop (m_hdr m) mod 1024)) as [L|L]; cbn [negb] in H.
    + right. split; auto. match type of H with bind ?o _ = _ => destruct o as [b|x|] eqn:B end; cbn [bind] in H; try discriminate.
      match type of B with bind ?o _ = _ => destruct o as [plain|x|] eqn:O end; cbn [bind] in B; try discriminate.
      apply opened_iff in O; auto. exists plain. split; auto. pose proof (opened_bytes _ _ _ _ _ K Hd' O) as Hpl.
      apply body_iff in B; auto. injection H as <-. exact B.
    + left. split; auto. cbn [bind] in H. injection H as <-. reflexivity.
  - intros (hb & d & C & Hh & H). pose proof (carries_bytes data _ C Hd) as Hp. rewrite (decode_frame env key data _ C).
    assert (Eh : hdr_decode (hb ++ d) = Ok (m_hdr m)) by (apply hdr_exact; eauto). apply bytes_ok_app in Hp as [Hb Hd'].
    rewrite Eh. cbn [bind]. rewrite (after_is _ _ _ Hh). unfold decode_body. rewrite get_body_size_mod. unfold u16.
    destruct H as [(L & B)|(L & plain & O & B)].
    + destruct (Z.eqb_spec (zlen d mod 65536) (h_prop (m_hdr m) mod 1024)); [contradiction|]. cbn. destruct m. cbn in *. congruence.
    + rewrite L, Z.eqb_refl. cbn [negb]. pose proof (opened_bytes _ _ _ _ _ K Hd' O) as Hpl. apply opened_iff in O; auto. rewrite O. cbn [bind].
      apply body_iff in B; auto. rewrite B. cbn [bind]. destruct m. reflexivity.
Qed.
(** The demonstration cipher gives bytes. *)
Lemma demo_plain c m : bytes_ok c -> oaep_dec demo_env 1 c = Some m -> bytes_ok m.
Proof.
  intros Hc. cbn [demo_env oaep_dec]. destruct c as [|n c]; [discriminate|]. destruct (_ && _ && _); [|discriminate]. intros H. injection H as <-.
  apply bytes_ok_firstn. exact (Forall_inv_tail Hc).
Qed.
