(** Exactly how Message.Encode ends. *)
From Verif Require Import Base LibBase Bits LibBits Bcd LibBcd GoTime Env EntTerm EntPlat Registry Message SpecFrame SpecMsg LibEntity ProofFrame ProofHeader ProofBody3 ProofMsg SpecWire ProofWire ProofWire2 ProofWire3 SpecRefuse.

Definition bad (env : Env) (s : bytes) : bool := snd (gb_enc env s).
(** The outcome [r] is the text error if [b], and some value otherwise. *)
Definition only_text {A} (r : res A) (b : bool) : Prop := if b then r = Err ErrText else exists d, r = Ok d.
Lemma ot_str env s : only_text (w_str env s) (bad env s).
Proof. unfold w_str, bad, only_text. destruct (gb_enc env s) as [d b]. cbn. destruct b; eauto. Qed.
Lemma ot_opt env s : only_text (w_str_opt env s) (existsb (bad env) (unless_empty s)).
Proof.
  unfold w_str_opt. destruct s as [|c s]; [cbn; eauto|]. rewrite zlen_cons. pose proof (zlen_nonneg s). replace (0 <? 1 + zlen s) with true by lia.
  cbn [unless_empty existsb]. rewrite orb_false_r. apply ot_str.
Qed.
Lemma ot_bind {A B} (r : res A) (k : A -> res B) b c : only_text r b -> (forall a, only_text (k a) c) -> only_text (bind r k) (b || c).
Proof. unfold only_text. intros H K. destruct b; [rewrite H; reflexivity|]. destruct H as (d & ->). exact (K d). Qed.
Lemma ot_ok {A} (a : A) : only_text (Ok a) false. Proof. cbn. eauto. Qed.
Lemma ot_map {A B} (f : A -> res B) (b : A -> bool) l : (forall a, only_text (f a) (b a)) -> only_text (mapM f l) (existsb b l).
Proof.
  intros H. induction l as [|a l IH]; [cbn; eauto|]. cbn [mapM existsb]. apply ot_bind; [apply H|]. intros y. rewrite <- (orb_false_r (existsb b l)). apply ot_bind; [exact IH|]. intros ys. apply ot_ok.
Qed.
Lemma ot_eq {A} (r : res A) b c : only_text r b -> b = c -> only_text r c. Proof. intros; subst; auto. Qed.
Lemma existsb_map {A B} (f : A -> B) (p : B -> bool) l : existsb p (map f l) = existsb (fun a => p (f a)) l.
Proof. induction l; cbn; congruence. Qed.
Lemma existsb_flat {A B} (f : A -> list B) (p : B -> bool) l : existsb p (flat_map f l) = existsb (fun a => existsb p (f a)) l.
Proof. induction l; cbn; auto. rewrite existsb_app, IHl. reflexivity. Qed.
Lemma existsb_eq {A} (p q : A -> bool) l : (forall a, p a = q a) -> existsb p l = existsb q l.
Proof. intros H. induction l; cbn; congruence. Qed.
Lemma ot_labelled env x : only_text (enc_labelled env x) (bad env (lb_text x)).
Proof. unfold enc_labelled. rewrite <- (orb_false_r (bad env _)). apply ot_bind; [apply ot_str|]. intros; apply ot_ok. Qed.

(** Bodies whose only obstacle is a text. *)
Definition textual (e : entity) : Prop := match e with E0104 _ | E8103 _ | E0A00 _ | E8A00 _ | E0801 _ => False | _ => True end.
Ltac ot1 := first [apply ot_str | apply ot_opt | apply ot_ok].
Lemma textual_encode env e : textual e -> only_text (encode env e) (existsb (bad env) (texts e)).
Proof.
  destruct e; cbn [textual]; intros H; try contradiction; cbn [encode texts]; try (cbn [existsb]; apply ot_ok).
  - unfold enc_0100. rewrite <- (orb_false_r (existsb _ _)). apply ot_bind; intros; ot1.
  - unfold enc_0102. ot1.
  - unfold enc_0702. cbn [existsb]. repeat (apply ot_bind; [apply ot_str|intros]). apply ot_ok.
  - unfold enc_8100. rewrite <- (orb_false_r (existsb _ _)). apply ot_bind; intros; ot1.
  - unfold enc_text. rewrite <- (orb_false_r (existsb _ _)). apply ot_bind; intros; ot1.
  - unfold enc_8108. cbn [existsb]. apply ot_bind; intros; ot1.
  - unfold enc_text. rewrite <- (orb_false_r (existsb _ _)). apply ot_bind; intros; ot1.
  - unfold enc_8301. rewrite existsb_map, <- (orb_false_r (existsb _ _)). apply ot_bind; [apply ot_map; intros; apply ot_labelled|intros; ot1].
  - unfold enc_8302. cbn [existsb]. rewrite existsb_map. apply ot_bind; [ot1|intros]. rewrite <- (orb_false_r (existsb _ _)). apply ot_bind; [apply ot_map; intros; apply ot_labelled|intros; ot1].
  - unfold enc_8303. rewrite <- (orb_false_r (existsb _ _)). apply ot_bind; [apply ot_map|intros; ot1]. intros s. unfold enc_8303_item. rewrite <- (orb_false_r (bad env s)). apply ot_bind; intros; ot1.
  - unfold enc_8304. cbn [existsb]. apply ot_bind; intros; ot1.
  - unfold enc_8401. rewrite existsb_flat, <- (orb_false_r (existsb _ _)). apply ot_bind; [apply ot_map|intros; ot1]. intros c. unfold enc_contact. cbn [existsb]. repeat (apply ot_bind; [apply ot_str|intros]). apply ot_ok.
Qed.
Lemma params_encode ps : (In None ps /\ mapM enc_param ps = Panic) \/ (~ In None ps /\ exists ds, mapM enc_param ps = Ok ds).
Proof.
  induction ps as [|[p|] ps IH].
  - right. split; [intros []|]. exists []. reflexivity.
  - destruct IH as [(I & E)|(I & ds & E)].
    + left. split; [right; exact I|]. cbn [mapM enc_param bind]. rewrite E. reflexivity.
    + right. split; [intros [K|K]; [discriminate|contradiction]|]. cbn [mapM enc_param bind]. rewrite E. eexists. reflexivity.
  - left. split; [left; reflexivity|reflexivity].
Qed.
(** One of three outcomes for every body. *)
Lemma encode_cases env e :
  (exists d, encode env e = Ok d) /\ ~ holed e /\ (forall x, ~ unsendable env e x) \/
  (exists x, encode env e = Err x /\ unsendable env e x /\ (forall y, unsendable env e y -> y = x)) /\ ~ holed e \/
  encode env e = Panic /\ holed e /\ (forall x, ~ unsendable env e x).
Proof.
  assert (T : textual e \/ ~ textual e) by (destruct e; cbn; auto). destruct T as [T|T].
  - assert (NH : ~ holed e) by (destruct e; cbn in T; try contradiction; intros []).
    pose proof (textual_encode env e T) as O. destruct (existsb (bad env) (texts e)) eqn:X; cbn [only_text] in O.
    + right. left. split; [|exact NH]. exists ErrText. split; [exact O|]. apply existsb_exists in X as (s & I & B). split; [econstructor; eauto|].
      intros y U. inversion U; subst; auto; cbn in T; contradiction.
    + left. split; [exact O|]. split; [exact NH|]. intros x U. inversion U as [e' s I B| | |]; subst; try (cbn in T; contradiction).
      enough (existsb (bad env) (texts e) = true) by congruence. apply existsb_exists. exists s. auto.
  - destruct e; cbn in T; try (exfalso; apply T; exact I); clear T; match goal with v : t0104 |- _ => rename v into x | v : t0801 |- _ => rename v into x | v : t0a00 |- _ => rename v into x | v : t8103 |- _ => rename v into x end; unfold holed; cbn [encode parameters].
    + unfold enc_0104. destruct (params_encode (a0104_params x)) as [(I & ->)|(I & ds & ->)]; cbn [bind].
      * right. right. split; [reflexivity|]. split; [exact I|]. intros y U. inversion U; subst; cbn in *; contradiction.
      * left. split; [eauto|]. split; [exact I|]. intros y U. inversion U; subst; cbn in *; contradiction.
    + unfold enc_0801. destruct (a0801_packet x) as [r|] eqn:R; [destruct (rdr_fail r) eqn:F|].
      * right. left. split; [|intros []]. exists ErrOther. split; [reflexivity|]. split; [econstructor; eauto|]. intros y U. inversion U; subst; auto. cbn in *; contradiction.
      * left. split; [eauto|]. split; [intros []|]. intros y U. inversion U; subst; cbn in *; try contradiction. congruence.
      * left. split; [eauto|]. split; [intros []|]. intros y U. inversion U; subst; cbn in *; try contradiction. congruence.
    + destruct (enc_0a00 x) as [d|y|] eqn:E.
      * left. split; [eauto|]. split; [intros []|]. intros y U. inversion U as [e' s I B|k N| |]; subst; cbn in *; try contradiction. apply N. apply key_refused. eauto.
      * right. left. split; [|intros []].
        assert (Y : y = ErrKey) by (unfold enc_0a00 in E; destruct (a0a00_key x) as [[? [n|]]|]; try congruence; destruct (negb _); congruence). subst y.
        exists ErrKey. split; [reflexivity|]. split; [|intros z U; inversion U; subst; auto; cbn in *; contradiction]. constructor. intros N. apply key_refused in N as (d & N). congruence.
      * exfalso. unfold enc_0a00 in E. destruct (a0a00_key x) as [[? [n|]]|]; try discriminate. destruct (negb _); discriminate.
    + unfold enc_8103. destruct (params_encode (a8103_params x)) as [(I & ->)|(I & ds & ->)]; cbn [bind].
      * right. right. split; [reflexivity|]. split; [exact I|]. intros y U. inversion U; subst; cbn in *; contradiction.
      * left. split; [eauto|]. split; [exact I|]. intros y U. inversion U; subst; cbn in *; contradiction.
    + destruct (enc_0a00 x) as [d|y|] eqn:E.
      * left. split; [eauto|]. split; [intros []|]. intros y U. inversion U as [e' s I B| |k N|]; subst; cbn in *; try contradiction. apply N. apply key_refused. eauto.
      * right. left. split; [|intros []].
        assert (Y : y = ErrKey) by (unfold enc_0a00 in E; destruct (a0a00_key x) as [[? [n|]]|]; try congruence; destruct (negb _); congruence). subst y.
        exists ErrKey. split; [reflexivity|]. split; [|intros z U; inversion U; subst; auto; cbn in *; contradiction]. constructor. intros N. apply key_refused in N as (d & N). congruence.
      * exfalso. unfold enc_0a00 in E. destruct (a0a00_key x) as [[? [n|]]|]; try discriminate. destruct (negb _); discriminate.
Qed.

(** ** Encryption *)
Lemma enc_chunks_iff env pub : 42 < key_size env pub -> forall f d rnd ct, (length d < f)%nat ->
  ((do cs <- split_loop f d (Z.to_nat (key_size env pub - 42)) ; enc_chunks env pub rnd cs) = Ok ct <-> enciphered env pub rnd d ct).
Proof.
  intros K. induction f as [|f IH]; intros d rnd ct L; [lia|]. cbn [split_loop].
  set (k := Z.to_nat (key_size env pub - 42)) in *. destruct (Nat.leb_spec k (length d)) as [B|B].
  - split.
    + intros H. destruct (split_loop f (skipn k d) k) as [cs| |] eqn:E; cbn [bind] in H; try discriminate.
      cbn [enc_chunks] in H. destruct (oaep_enc env pub rnd (firstn k d)) as [x|] eqn:D; [|discriminate].
      destruct (enc_chunks env pub (rnd + 1) cs) as [r| |] eqn:R; cbn [bind] in H; try discriminate. injection H as <-.
      rewrite <- (firstn_skipn k d). apply EcMore; auto.
      * unfold zlen. rewrite firstn_length. lia.
      * apply IH; [rewrite skipn_length; lia|]. rewrite E. exact R.
    + intros H. inversion H; subst.
      * cbn in B. lia.
      * unfold zlen in *. lia.
      * match goal with D : enciphered _ _ _ _ _ |- _ => apply IH in D; [|rewrite app_length in L; unfold zlen in *; lia] end.
        assert (F : firstn k (b ++ d0) = b /\ skipn k (b ++ d0) = d0).
        { replace k with (length b) by (unfold zlen in *; lia). rewrite firstn_app, skipn_app, firstn_all, skipn_all, Nat.sub_diag. cbn. rewrite app_nil_r. auto. }
        destruct F as [-> ->]. destruct (split_loop f d0 k) as [cs| |]; cbn [bind] in *; try discriminate. cbn [enc_chunks].
        match goal with O : oaep_enc _ _ _ _ = _ |- _ => rewrite O end. match goal with O : enc_chunks _ _ _ _ = _ |- _ => rewrite O end. reflexivity.
  - destruct d as [|x d].
    + cbn. split; [intros H; injection H as <-; constructor|]. intros H. inversion H; subst; auto; [congruence|].
      match goal with E : ?b ++ ?d = [] |- _ => apply app_eq_nil in E as [-> ->] end. change (zlen (@nil Z)) with 0 in *. lia.
    + cbn [bind enc_chunks]. split.
      * intros H. destruct (oaep_enc env pub rnd (x :: d)) as [y|] eqn:D; [|discriminate]. cbn [bind] in H. rewrite app_nil_r in H. injection H as <-.
        apply EcLast; auto; [discriminate|unfold zlen; lia].
      * intros H. inversion H; subst.
        -- match goal with O : oaep_enc _ _ _ _ = _ |- _ => rewrite O end. cbn [bind]. rewrite app_nil_r. reflexivity.
        -- exfalso. match goal with E : ?b ++ ?r = x :: d |- _ => rewrite <- E in B; rewrite app_length in B end. unfold zlen in *. lia.
Qed.
Lemma encrypt_iff env pub rnd d ct : 42 < key_size env pub -> (encrypt_oaep env pub rnd d = Ok ct <-> enciphered env pub rnd d ct).
Proof.
  intros K. unfold encrypt_oaep, bytes_split. replace (key_size env pub - 2 * 20 - 2) with (key_size env pub - 42) by lia.
  destruct (Z.leb_spec (key_size env pub - 42) 0); [lia|]. apply enc_chunks_iff; auto.
Qed.
Lemma enc_chunks_err env pub cs : forall rnd, (exists ct, enc_chunks env pub rnd cs = Ok ct) \/ enc_chunks env pub rnd cs = Err ErrCrypt.
Proof.
  induction cs as [|c cs IH]; intros rnd; cbn [enc_chunks]; [eauto|]. destruct (oaep_enc env pub rnd c); [|auto]. destruct (IH (rnd + 1)) as [(ct & ->)| ->]; cbn [bind]; eauto.
Qed.
Lemma split_total limit : (0 < limit)%nat -> forall f d, (length d < f)%nat -> exists cs, split_loop f d limit = Ok cs.
Proof.
  intros P. induction f as [|f IH]; intros d L; [lia|]. cbn [split_loop]. destruct (Nat.leb_spec limit (length d)).
  - destruct (IH (skipn limit d)) as (cs & ->); [rewrite skipn_length; lia|]. cbn [bind]. eauto.
  - destruct d; eauto.
Qed.
Lemma encrypt_cases env pub rnd d :
  key_size env pub <= 42 /\ encrypt_oaep env pub rnd d = Panic \/
  42 < key_size env pub /\ ((exists ct, encrypt_oaep env pub rnd d = Ok ct) \/ encrypt_oaep env pub rnd d = Err ErrCrypt).
Proof.
  unfold encrypt_oaep, bytes_split. destruct (Z.leb_spec (key_size env pub - 2 * 20 - 2) 0); [left; split; [lia|reflexivity]|]. right. split; [lia|].
  destruct (split_total (Z.to_nat (key_size env pub - 2 * 20 - 2)) ltac:(lia) (S (length d)) d ltac:(lia)) as (cs & ->). cbn [bind]. apply enc_chunks_err.
Qed.

(** ** Messages *)
Lemma fit_flag p s q : 0 <= s -> set_body_size p s = Ok q -> Z.testbit q 13 = Z.testbit p 13.
Proof.
  unfold set_body_size. intros P H. destruct (s >? 1023) eqn:E; [discriminate|]. assert (q = Z.lor (Z.shiftl (Z.shiftr p 10) 10) s) as -> by congruence. rewrite Z.lor_spec, (testbit_small s 10) by (change (2 ^ 10) with 1024; lia). rewrite orb_false_r, Z.shiftl_spec, Z.shiftr_spec by lia. reflexivity.
Qed.
Lemma bits13 p : Z.testbit (enable_encrypt p) 13 = Z.testbit p 13.
Proof. rewrite enable_encrypt_testbit by lia. apply orb_false_r. Qed.
(** How it goes on once the body is there. *)
Lemma after_body env key rnd m b h0 b' i : enc_body env key rnd m = Ok (b, h0, b') -> h_packet h0 = h_packet (m_hdr m) -> Z.testbit (h_prop h0) 13 = Z.testbit (h_prop (m_hdr m)) 13 ->
  body_id (m_body m) = Ok i ->
  1023 < zlen b mod 65536 /\ msg_encode env key rnd m = Err ErrBodyTooLong \/
  zlen b mod 65536 <= 1023 /\
   (h_packet (m_hdr m) = None /\ Z.testbit (h_prop (m_hdr m)) 13 = true /\ msg_encode env key rnd m = Panic \/
    ~ (h_packet (m_hdr m) = None /\ Z.testbit (h_prop (m_hdr m)) 13 = true) /\ exists r, msg_encode env key rnd m = Ok r).
Proof.
  intros E HP HB I. unfold msg_encode. rewrite E. cbn [bind]. rewrite I. cbn [bind]. unfold u16.
  destruct (Z.leb_spec (zlen b mod 65536) 1023) as [L|L]; [right; split; [exact L|]|left; split; [exact L|]; rewrite set_body_size_err by lia; reflexivity].
  destruct (set_body_size (h_prop h0) (zlen b mod 65536)) as [q| |] eqn:S; [|exfalso; unfold set_body_size in S; destruct (_ >? _) eqn:G; [lia|discriminate]|exfalso; unfold set_body_size in S; destruct (_ >? _); discriminate].
  cbn [bind]. assert (F : Z.testbit q 13 = Z.testbit (h_prop h0) 13) by (eapply fit_flag; [|exact S]; lia). rewrite HB in F. unfold hdr_encode, set_prop, set_id. cbn [h_id h_prop h_icc h_serial h_packet]. rewrite HP.
  destruct (h_packet (m_hdr m)) as [[u v]|] eqn:PK.
  - right. split; [intros [K _]; discriminate|]. rewrite is_enable_packet_bit, enable_packet_testbit by lia. rewrite orb_true_r. cbn [bind]. eauto.
  - rewrite is_enable_packet_bit, F. destruct (Z.testbit (h_prop (m_hdr m)) 13).
    + left. auto.
    + right. split; [intros [_ K]; discriminate|]. cbn [bind]. eauto.
Qed.
(** One of three outcomes for every message. *)
Lemma body_bytes_fun env key rnd m a b : body_bytes env key rnd m a -> body_bytes env key rnd m b -> a = b.
Proof.
  intros A B. destruct A as [i E|e d E K D|e d pub ct E K S D C]; destruct B as [i2 E2|e2 d2 E2 K2 D2|e2 d2 pub2 ct2 E2 K2 S2 D2 C2]; try congruence.
  assert (e2 = e) by congruence. assert (pub2 = pub) by congruence. subst. assert (d2 = d) by congruence. subst. apply encrypt_iff in C, C2; auto. congruence.
Qed.
Lemma msg_encode_cases env key rnd m :
  (exists r, msg_encode env key rnd m = Ok r) /\ ~ panics env key rnd m /\ (forall x, ~ refused env key rnd m x) \/
  (exists x, msg_encode env key rnd m = Err x /\ refused env key rnd m x /\ (forall y, refused env key rnd m y -> y = x)) /\ ~ panics env key rnd m \/
  msg_encode env key rnd m = Panic /\ panics env key rnd m /\ (forall x, ~ refused env key rnd m x).
Proof.
  (* Once the bytes of the body are known. *)
  assert (FIN : forall b h0 b' i, body_bytes env key rnd m b -> enc_body env key rnd m = Ok (b, h0, b') -> h_packet h0 = h_packet (m_hdr m) ->
     Z.testbit (h_prop h0) 13 = Z.testbit (h_prop (m_hdr m)) 13 -> body_id (m_body m) = Ok i ->
     (forall e, m_body m = BEnt e -> ~ holed e /\ forall x, ~ unsendable env e x) ->
     (forall e d pub, m_body m = BEnt e -> encode env e = Ok d -> key = Some pub -> 42 < key_size env pub /\ exists ct, enciphered env pub rnd d ct) ->
     (exists r, msg_encode env key rnd m = Ok r) /\ ~ panics env key rnd m /\ (forall x, ~ refused env key rnd m x) \/
     (exists x, msg_encode env key rnd m = Err x /\ refused env key rnd m x /\ (forall y, refused env key rnd m y -> y = x)) /\ ~ panics env key rnd m \/
     msg_encode env key rnd m = Panic /\ panics env key rnd m /\ (forall x, ~ refused env key rnd m x)).
  { intros b h0 b' i BB EB HP HB I CL CK.
    assert (NoR : forall x, refused env key rnd m x -> x = ErrBodyTooLong /\ 1023 < zlen b mod 65536).
    { intros x R. inversion R as [e x' Me U|e d pub Me Ed Kd Sz N|b2 B2 L]; subst.
      - exfalso. eapply (proj2 (CL e Me)); eauto.
      - exfalso. destruct (CK e d pub Me Ed eq_refl) as (_ & ct & C). eapply N; eauto.
      - split; [reflexivity|]. rewrite (body_bytes_fun _ _ _ _ _ _ BB B2). exact L. }
    assert (NoP : panics env key rnd m -> zlen b mod 65536 <= 1023 /\ h_packet (m_hdr m) = None /\ Z.testbit (h_prop (m_hdr m)) 13 = true).
    { intros P. destruct P as [Me|e Me Ho|e d pub Me Ed Kd Sz|b2 B2 L Pk Bt].
      - rewrite Me in I. discriminate.
      - exfalso. eapply (proj1 (CL e Me)); eauto.
      - exfalso. destruct (CK e d pub Me Ed Kd) as (Sz' & _). lia.
      - rewrite (body_bytes_fun _ _ _ _ _ _ BB B2). auto. }
    destruct (after_body env key rnd m b h0 b' i EB HP HB I) as [(L & E)|(L & [(Pk & Bt & E)|(N & E)])].
    - right. left. split; [|intros P; apply NoP in P; lia]. exists ErrBodyTooLong. split; [exact E|]. split; [eapply RfLong; eauto|]. intros y R. apply NoR in R. tauto.
    - right. right. split; [exact E|]. split; [eapply PnPacket; eauto|]. intros x R. apply NoR in R. lia.
    - left. split; [exact E|]. split; [intros P; apply NoP in P; tauto|]. intros x R. apply NoR in R. lia. }
  destruct (m_body m) as [|i|e] eqn:Me.
  - right. right. split; [unfold msg_encode, enc_body; rewrite Me; reflexivity|]. split; [apply PnNil; exact Me|]. intros x R.
    inversion R as [e x' Me'|e d pub Me'|b2 B2]; subst; try congruence. inversion B2; congruence.
  - eapply (FIN [] (m_hdr m)); auto.
    + eapply BbNone. reflexivity || exact Me.
    + unfold enc_body. rewrite Me. reflexivity.
    + reflexivity.
    + intros; congruence.
    + intros; congruence.
  - destruct (encode_cases env e) as [((d & E) & NH & NU)|[((x & E & U & UU) & NH)|(E & HO & NU)]].
    + destruct key as [pub|].
      * destruct (encrypt_cases env pub rnd d) as [(Sz & C)|(Sz & [(ct & C)|C])].
        -- right. right. split; [unfold msg_encode, enc_body; rewrite Me, E; cbn [bind]; rewrite C; reflexivity|]. split; [eapply PnKey; eauto|]. intros x R.
           inversion R as [e' x' Me' U|e' d' pub' Me' Ed Kd Sz'|b2 B2]; subst.
           ++ assert (e' = e) by congruence. subst. eapply NU; eauto.
           ++ injection Kd as <-. lia.
           ++ inversion B2 as [| |? ? pub' ? ? Kd Sz']; subst; try congruence. injection Kd as <-. lia.
        -- eapply (FIN ct (set_prop (m_hdr m) (enable_encrypt (h_prop (m_hdr m))))); auto.
           ++ eapply BbSecret; eauto. apply encrypt_iff; auto.
           ++ unfold enc_body. rewrite Me, E. cbn [bind]. rewrite C. reflexivity.
           ++ cbn [set_prop h_prop]. apply bits13.
           ++ reflexivity.
           ++ intros e' Q. injection Q as <-. auto.
           ++ intros e' d' pub' Q Ed Kd. injection Q as <-. injection Kd as <-. split; [exact Sz|]. exists ct. rewrite E in Ed. injection Ed as <-. apply encrypt_iff; auto.
        -- right. left. assert (NE : forall c, ~ enciphered env pub rnd d c) by (intros c Q; apply encrypt_iff in Q; [congruence|exact Sz]).
           assert (NB : forall b, ~ body_bytes env (Some pub) rnd m b).
           { intros b B. inversion B as [| |e' d' pub' ct' Me' Kd Sz' Ed C']; subst; try congruence. injection Kd as <-. assert (e' = e) by congruence. subst. assert (d' = d) by congruence. subst. eapply NE; eauto. }
           split.
           ++ exists ErrCrypt. split; [unfold msg_encode, enc_body; rewrite Me, E; cbn [bind]; rewrite C; reflexivity|]. split; [eapply RfCipher; eauto|]. intros y R.
              inversion R as [e' x' Me' U| |b2 B2]; subst; auto; [|exfalso; eapply NB; eauto]. assert (e' = e) by congruence. subst. exfalso. eapply NU; eauto.
           ++ intros P. destruct P as [Me'|e' Me' Ho|e' d' pub' Me' Ed Kd Sz'|b2 B2 L Pk Bt]; [congruence| | |eapply NB; eauto].
              ** assert (e' = e) by congruence. subst. contradiction.
              ** injection Kd as <-. lia.
      * eapply (FIN d (m_hdr m)); auto.
        -- eapply BbPlain; eauto.
        -- unfold enc_body. rewrite Me, E. reflexivity.
        -- reflexivity.
        -- intros e' Q. injection Q as <-. auto.
        -- intros; congruence.
    + assert (NB : forall b, ~ body_bytes env key rnd m b).
      { intros b B. inversion B; subst; try congruence; assert (e0 = e) by congruence; subst; congruence. }
      right. left. split.
      * exists x. split; [unfold msg_encode, enc_body; rewrite Me, E; reflexivity|]. split; [eapply RfBody; eauto|]. intros y R.
        inversion R as [e' x' Me' U'|e' d pub Me' Ed Kd Sz N|b2 B2]; subst; [|congruence|exfalso; eapply NB; eauto]. assert (e' = e) by congruence. subst. apply UU; auto.
      * intros P. destruct P as [Me'|e' Me' Ho|e' d' pub' Me' Ed Kd Sz'|b2 B2 L Pk Bt]; [congruence| | |eapply NB; eauto].
        -- assert (e' = e) by congruence. subst. contradiction.
        -- congruence.
    + right. right. split; [unfold msg_encode, enc_body; rewrite Me, E; reflexivity|]. split; [eapply PnHole; eauto|]. intros y R.
      inversion R as [e' x' Me' U'|e' d pub Me' Ed Kd Sz N|b2 B2]; subst; [| congruence|].
      * assert (e' = e) by congruence. subst. eapply NU; eauto.
      * inversion B2; subst; try congruence; assert (e0 = e) by congruence; subst; congruence.
Qed.
Lemma built_frame env key rnd m i h0 b b' : is_u16 i -> body_id (m_body m) = Ok i -> enc_body env key rnd m = Ok (b, h0, b') -> hdr_fits h0 -> zlen b mod 65536 <= 1023 ->
  exists data m' hb, msg_encode env key rnd m = Ok (data, m') /\ frame (hb ++ b) (xor_all (hb ++ b)) data /\
  on_wire (header_layout i (wire_prop (h_prop h0) (zlen b mod 65536) (has (h_packet h0))) (h_icc h0) (h_serial h0) (h_packet h0)) hb.
Proof.
  intros Hi Bi Eb F N. pose proof F as (F1 & F2 & F3 & F4). assert (Hs : 0 <= zlen b mod 65536 <= 1023) by lia.
  pose proof (set_body_size_ok (h_prop h0) (zlen b mod 65536) F1 Hs) as S.
  set (h1 := set_prop (set_id h0 i) (h_prop h0 / 1024 * 1024 + zlen b mod 65536)).
  assert (P : h_packet h1 = None -> Z.testbit (h_prop h1) 13 = false).
  { cbn [h1 set_prop set_id h_packet h_prop]. intros K. rewrite packet_flag by auto. rewrite K in F4. auto. }
  destruct (hdr_encode_ok h1 P) as (hb & Eh). pose proof (sent_is_arrives h0 i (zlen b) N) as SA. fold h1 in SA. rewrite SA in Eh.
  destruct (msg_encode_ok env key rnd m b _ b' i _ hb _ Eb Bi S Eh) as (data & D & Fr).
  exists data. eexists. exists hb. split; [exact D|]. split; [exact Fr|]. apply ow_header; auto.
Qed.
Lemma sent_frame env key rnd m i b : body_bytes env key rnd m b -> numbered m i -> is_u16 i -> hdr_fits (m_hdr m) -> zlen b mod 65536 <= 1023 ->
  exists data m' hb, msg_encode env key rnd m = Ok (data, m') /\ frame (hb ++ b) (xor_all (hb ++ b)) data /\
  on_wire (header_layout i (wire_prop (marked key m) (zlen b mod 65536) (has (h_packet (m_hdr m)))) (h_icc (m_hdr m)) (h_serial (m_hdr m)) (h_packet (m_hdr m))) hb.
Proof.
  intros B NU Hi F N. assert (BI : body_id (m_body m) = Ok i) by (destruct NU as [->|(e & -> & ->)]; [reflexivity|cbn [body_id]; rewrite type_number_id; reflexivity]).
  unfold marked. destruct B as [j Me|e d Me K E|e d pub ct Me K Sz E C]; rewrite Me in *.
  - eapply (built_frame env key rnd m i (m_hdr m) []); auto; [rewrite Me; exact BI|]. unfold enc_body. rewrite Me. reflexivity.
  - rewrite K. subst key. eapply (built_frame env None rnd m i (m_hdr m) d); auto; [rewrite Me; exact BI|]. unfold enc_body. rewrite Me, E. reflexivity.
  - subst key. apply encrypt_iff in C; auto.
    destruct (built_frame env (Some pub) rnd m i (encrypted (m_hdr m)) ct (BEnt (encoded e)) Hi) as (data & m' & hb & Q); auto.
    + rewrite Me. exact BI.
    + unfold enc_body. rewrite Me, E. cbn [bind]. rewrite C. reflexivity.
    + apply encrypted_fits. exact F.
    + exists data, m', hb. exact Q.
Qed.
Lemma body_refused env e x : encode env e = Err x <-> unsendable env e x.
Proof.
  destruct (encode_cases env e) as [((d & E) & NH & NU)|[((y & E & U & UU) & NH)|(E & HO & NU)]]; rewrite E; split; intros H; try discriminate.
  - exfalso. eapply NU; eauto.
  - congruence.
  - rewrite (UU _ H). reflexivity.
  - exfalso. eapply NU; eauto.
Qed.
Lemma body_panics env e : encode env e = Panic <-> holed e.
Proof.
  destruct (encode_cases env e) as [((d & E) & NH & NU)|[((y & E & U & UU) & NH)|(E & HO & NU)]]; rewrite E; split; intros H; try discriminate; try contradiction; auto.
Qed.
Lemma message_refused env key rnd m x : msg_encode env key rnd m = Err x <-> refused env key rnd m x.
Proof.
  destruct (msg_encode_cases env key rnd m) as [((d & E) & NH & NU)|[((y & E & U & UU) & NH)|(E & HO & NU)]]; rewrite E; split; intros H; try discriminate.
  - exfalso. eapply NU; eauto.
  - congruence.
  - rewrite (UU _ H). reflexivity.
  - exfalso. eapply NU; eauto.
Qed.
Lemma message_panics env key rnd m : msg_encode env key rnd m = Panic <-> panics env key rnd m.
Proof.
  destruct (msg_encode_cases env key rnd m) as [((d & E) & NH & NU)|[((y & E & U & UU) & NH)|(E & HO & NU)]]; rewrite E; split; intros H; try discriminate; try contradiction; auto.
Qed.
