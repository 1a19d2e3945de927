(** Proofs for C205 and C206: lengths of frames. *)
From Verif Require Import Base LibBase Bits LibBits Bcd LibBcd Env EntTerm EntPlat Registry Message Codec.
From Verif Require Import SpecFrame SpecMsg SpecStream SpecLength ProofFrame ProofHeader ProofMsg ProofStream ProofStream2.

Lemma escape_length p : zlen (escape p) = zlen p + doubled p.
Proof.
  induction p as [|b p IH]; [reflexivity|]. rewrite escape_cons, zlen_app, IH, zlen_cons. cbn [doubled]. unfold escape1, prefix_id, escape_byte.
  destruct (Z.eqb_spec b 126), (Z.eqb_spec b 125); cbn [orb]; unfold zlen; cbn [length]; lia.
Qed.
Lemma doubled_app p q : doubled (p ++ q) = doubled p + doubled q.
Proof. induction p as [|b p IH]; cbn [doubled app]; [reflexivity|]. rewrite IH. lia. Qed.
Lemma doubled_most p : 0 <= doubled p <= zlen p.
Proof. induction p as [|b p IH]; [cbn; lia|]. rewrite zlen_cons. cbn [doubled]. destruct (_ || _); lia. Qed.
Lemma header_size h hb h' : hdr_encode h = Ok (hb, h') -> zlen hb = header_length (h_packet h).
Proof.
  unfold hdr_encode. set (prop := match h_packet h with Some _ => _ | None => _ end). set (base := concat _).
  assert (B : zlen base = 12). { unfold base. cbn [concat]. rewrite app_nil_r, !zlen_app, !zlen_w_u16, icc_len. reflexivity. }
  clearbody base. destruct (is_enable_packet prop) eqn:P; destruct (h_packet h) as [[sum seq]|] eqn:K; try discriminate; intros E; injection E as <- _; cbn [header_length].
  - rewrite !zlen_app, B. reflexivity.
  - exfalso. unfold prop in P. rewrite is_enable_packet_bit, enable_packet_testbit, orb_true_r in P by lia. discriminate.
  - exact B.
Qed.
Lemma sent_body env key rnd m bdy h b : enc_body env key rnd m = Ok (bdy, h, b) -> h_packet h = h_packet (m_hdr m).
Proof.
  unfold enc_body. destruct (m_body m); try (intros E; injection E as _ <- _; reflexivity).
  destruct (encode env e); cbn [bind]; try discriminate. destruct key; [|intros E; injection E as _ <- _; reflexivity].
  destruct (encrypt_oaep _ _ _ _); cbn [bind]; try discriminate. intros E; injection E as _ <- _. reflexivity.
Qed.
Lemma frame_length env key rnd m data m' : msg_encode env key rnd m = Ok (data, m') -> exists hb bdy c h b,
  enc_body env key rnd m = Ok (bdy, h, b) /\ frame (hb ++ bdy) c data /\ zlen hb = header_length (h_packet (m_hdr m)) /\
  zlen data = zlen hb + zlen bdy + 3 + doubled (hb ++ bdy ++ [c]) /\ zlen bdy mod 65536 <= 1023.
Proof.
  unfold msg_encode. destruct (enc_body env key rnd m) as [[[bdy h] b]| |] eqn:EB; cbn [bind]; try discriminate.
  destruct (body_id _) as [id| |]; cbn [bind]; try discriminate. unfold set_body_size. destruct (Z.gtb_spec (u16 (zlen bdy)) 1023) as [|S]; cbn [bind]; [discriminate|].
  set (prop := Z.lor _ _). destruct (hdr_encode _) as [[hb h2]| |] eqn:EH; cbn [bind]; try discriminate. intros E. apply (f_equal (fun r => match r with Ok (d, _) => d | _ => [] end)) in E. cbv beta iota in E. subst data. apply header_size in EH.
  exists hb, bdy, (checksum (checksum 0 bdy) hb), h, b. split; [reflexivity|]. cbn [set_prop set_id h_packet] in EH. rewrite (sent_body _ _ _ _ _ _ _ EB) in EH.
  split; [|split; [exact EH|split]].
  - exists (escape (hb ++ bdy)), (escape [checksum (checksum 0 bdy) hb]). split; [apply escape_escaped|]. split; [apply escape_escaped|]. rewrite escape_app, <- !app_assoc. reflexivity.
  - rewrite !zlen_app, !escape_length, !doubled_app. unfold prefix_id. change (zlen [126]) with 1. change (zlen [checksum (checksum 0 bdy) hb]) with 1. lia.
  - unfold u16 in S. lia.
Qed.
Lemma extent env key rnd m data m' : msg_encode env key rnd m = Ok (data, m') -> 15 <= zlen data <= 2082 \/ 65551 <= zlen data.
Proof.
  intros E. destruct (frame_length _ _ _ _ _ _ E) as (hb & bdy & c & h & b & _ & _ & H & L & S). pose proof (doubled_most (hb ++ bdy ++ [c])) as D. rewrite !zlen_app in D. change (zlen [c]) with 1 in D.
  assert (12 <= zlen hb <= 16) by (rewrite H; destruct (h_packet _); cbn; lia). assert (0 <= zlen bdy) by (unfold zlen; lia). lia.
Qed.
Lemma extent_plain env rnd m e raw data m' : m_body m = BEnt e -> encode env e = Ok raw -> msg_encode env None rnd m = Ok (data, m') ->
  if zlen raw <? 65536 then 15 + zlen raw <= zlen data <= 36 + 2 * zlen raw /\ zlen raw <= 1023 else 65551 <= zlen data.
Proof.
  intros B R E. destruct (frame_length _ _ _ _ _ _ E) as (hb & bdy & c & h & b & EB & _ & H & L & S). unfold enc_body in EB. rewrite B, R in EB. cbn [bind] in EB. injection EB as <- _ _.
  pose proof (doubled_most (hb ++ raw ++ [c])) as D. rewrite !zlen_app in D. change (zlen [c]) with 1 in D. assert (12 <= zlen hb <= 16) by (rewrite H; destruct (h_packet _); cbn; lia). assert (0 <= zlen raw) by (unfold zlen; lia).
  destruct (Z.ltb_spec (zlen raw) 65536); lia.
Qed.
Lemma frame_inside p c data : frame p c data -> exists t, data = 126 :: t ++ [126] /\ ~ In 126 t.
Proof.
  intros (w & v & W & V & ->). exists (w ++ v). split; [cbn [app]; rewrite <- app_assoc; reflexivity|]. rewrite in_app_iff. intros [I|I]; [exact (escaped_no_delim _ _ W I)|exact (escaped_no_delim _ _ V I)].
Qed.
Lemma cut_open t b r : ~ In 126 t -> b ++ r = 126 :: t ++ [126] -> r <> [] -> incomplete b.
Proof.
  intros N S NE. destruct (exists_last NE) as (r' & x & ->). rewrite app_assoc in S. change (126 :: t ++ [126]) with ((126 :: t) ++ [126]) in S. apply app_inj_tail in S. destruct S as (S & _).
  destruct b as [|y u]; [left; reflexivity|]. cbn [app] in S. injection S as -> S. right. exists u. split; [reflexivity|]. intros I. apply N. rewrite <- S. apply in_or_app. left. exact I.
Qed.
Lemma given_up env key t more evs cs : ~ In 126 t -> 65535 < zlen (126 :: t ++ [126]) -> forall b, b ++ concat cs = (126 :: t ++ [126]) ++ more -> zlen b <= 65535 ->
  exists b' evs', receive env key b (map RData cs ++ evs) = (GotErr ErrBodyTooLong, b', evs').
Proof.
  intros N L. induction cs as [|d cs IH]; intros b E B.
  - cbn [concat] in E. rewrite app_nil_r in E. rewrite E, zlen_app in B. pose proof (zlen_nonneg more). lia.
  - assert (I : incomplete b).
    { apply (cut_open t b (skipn (length b) (126 :: t ++ [126])) N).
      - rewrite <- (firstn_skipn (length b) (126 :: t ++ [126])) at 2. f_equal. apply (f_equal (firstn (length b))) in E. rewrite !firstn_app, firstn_all, Nat.sub_diag in E.
        assert (D : Nat.sub (length b) (length (126 :: t ++ [126])) = O) by (unfold zlen in *; lia). rewrite D in E. rewrite !firstn_O, !app_nil_r in E. exact E.
      - intros Z0. apply (f_equal (@length Z)) in Z0. rewrite skipn_length in Z0. change (length []) with 0%nat in Z0. unfold zlen in *. lia. }
    cbn [map app concat] in *. destruct (Z.leb_spec (zlen (b ++ d)) 65535) as [S|S].
    + rewrite receive_more by auto. apply IH; [rewrite <- app_assoc; exact E|exact S].
    + unfold receive. rewrite rfb_none by auto. cbn [read_loop]. replace (zlen (b ++ d) =? 0) with false by lia. replace (65535 <? zlen (b ++ d)) with true by lia. eauto.
Qed.
Lemma cut_off env key rnd m data m' env' key' cs more evs : msg_encode env key rnd m = Ok (data, m') -> 2082 < zlen data -> concat cs = data ++ more ->
  exists b' evs', receive env' key' [] (map RData cs ++ evs) = (GotErr ErrBodyTooLong, b', evs').
Proof.
  intros E L C. pose proof (extent _ _ _ _ _ _ E) as X. destruct (frame_length _ _ _ _ _ _ E) as (hb & bdy & c & h & b & _ & F & _). destruct (frame_inside _ _ _ F) as (t & -> & N).
  apply (given_up env' key' t more evs cs N); [lia|exact C|cbn; lia].
Qed.
Lemma unreceivable env : exists m e raw data m', m_body m = BEnt e /\ encode env e = Ok raw /\ hdr_fits (m_hdr m) /\ msg_encode env None 0 m = Ok (data, m') /\ 65551 <= zlen data.
Proof.
  set (e := E8900 (TData 1 (repeat 0 (Z.to_nat 65535)))).
  assert (E : encode env e = Ok (1 :: repeat 0 (Z.to_nat 65535))) by reflexivity.
  assert (L : zlen (1 :: repeat 0 (Z.to_nat 65535)) = 65536) by (rewrite zlen_cons; unfold zlen; rewrite repeat_length; lia).
  set (m := Message (Header 0 0 1 1 None) (BEnt e)).
  assert (F : hdr_fits (m_hdr m)). { unfold hdr_fits, is_u16. cbn [m m_hdr h_prop h_icc h_serial h_packet]. split; [lia|]. split; [lia|]. split; [lia|]. reflexivity. }
  destruct (size_exact env 0 m e (1 :: repeat 0 (Z.to_nat 65535)) eq_refl E F) as (_ & H).
  destruct H as (d & m' & H & _); [rewrite L; cbv; congruence|]. exists m, e, (1 :: repeat 0 (Z.to_nat 65535)), d, m'. split; [reflexivity|]. split; [exact E|]. split; [exact F|]. split; [exact H|].
  pose proof (extent_plain env 0 m e _ d m' eq_refl E H) as X. rewrite L in X. exact X.
Qed.
Lemma not_received env : exists m e raw data m', m_body m = BEnt e /\ encode env e = Ok raw /\ hdr_fits (m_hdr m) /\ msg_encode env None 0 m = Ok (data, m') /\
  forall key cs more evs, concat cs = data ++ more -> exists b' evs', receive env key [] (map RData cs ++ evs) = (GotErr ErrBodyTooLong, b', evs').
Proof.
  destruct (unreceivable env) as (m & e & raw & data & m' & B & E & F & M & L). exists m, e, raw, data, m'. repeat (split; [assumption|]). intros key cs more evs. apply (cut_off env None 0 m data m' env key cs more evs M). lia.
Qed.
