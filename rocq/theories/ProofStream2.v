(** Consequences for streams of frames, buffer bounds, progress and resynchronisation. *)
From Verif Require Import Base LibBase Bits LibBits Bcd LibBcd Env EntTerm EntPlat Registry Message Codec.
From Verif Require Import SpecFrame SpecMsg SpecGeo SpecEntity SpecStream Demo ProofFrame ProofHeader ProofRound3 ProofMsg ProofMsg2 ProofStream.

(** ** Streams of valid frames *)
Lemma around_cons f s : around f ++ s = 126 :: f ++ 126 :: s.
Proof. unfold around. cbn [app]. rewrite <- app_assoc. reflexivity. Qed.
Lemma good_until env key fin fs ms : Forall2 (good_frame env key) fs ms ->
  until_error env key fin (runs (concat (map around fs))) = (ms, fin) /\ manageable (concat (map around fs)).
Proof.
  induction 1 as [|f m fs ms (H1 & H2 & H3) F (IH1 & IH2)]; [split; [reflexivity|repeat constructor; cbv; congruence]|].
  cbn [map concat]. rewrite around_cons. split.
  - rewrite runs_frame, ue_frame, H3, IH1 by auto. reflexivity.
  - unfold manageable. rewrite runs_frame by auto. constructor; [cbv; congruence|]. constructor; auto.
Qed.
Lemma frames_arrive env key fs ms cs tail : Forall2 (good_frame env key) fs ms ->
  concat cs = concat (map around fs) -> reads_ok cs -> quiet_tail tail ->
  receive_all (S (length ms)) env key [] (map RData cs ++ tail) = (ms, ending tail).
Proof.
  intros F E R Q. destruct (good_until env key (ending tail) fs ms F) as (U & M).
  rewrite (receive_until env key (2 * length (@nil Z) + length cs + 2 * length (concat cs))%nat); auto; cbn [app]; rewrite E, ?U; auto.
Qed.
(** ** From sender to receiver *)
Lemma escaped_len p w : escaped p w -> zlen w <= 2 * zlen p.
Proof. induction 1; rewrite ?zlen_cons in *; [unfold zlen; cbn; lia|lia..]. Qed.
Lemma header_bytes h hb h2 : hdr_encode h = Ok (hb, h2) -> zlen hb <= 16.
Proof.
  unfold hdr_encode. assert (B : forall p, zlen (concat [w_u16 (h_id h); w_u16 p; string_to_bcd_n (format_uint (h_icc h)) 6; w_u16 (h_serial h)]) = 12).
  { intros p. cbn [concat]. rewrite !zlen_app, icc_len. reflexivity. }
  destruct (is_enable_packet _).
  - destruct (h_packet h) as [[a b]|]; [|discriminate]. intros K. match type of K with Ok (?x, _) = _ => assert (E : x = hb) by congruence; rewrite <- E end. rewrite !zlen_app, B. change (12 + (2 + 2) <= 16). lia.
  - intros K. match type of K with Ok (?x, _) = _ => assert (E : x = hb) by congruence; rewrite <- E end. rewrite B. lia.
Qed.
Lemma frame_size env key rnd m data m' bdy h b : msg_encode env key rnd m = Ok (data, m') -> enc_body env key rnd m = Ok (bdy, h, b) -> zlen bdy <= 1023 ->
  exists f, data = around f /\ ~ In 126 f /\ zlen f <= 2080.
Proof.
  intros E B N. apply msg_encode_inv in E. destruct E as (bdy' & h0 & b' & id & prop & hb & h2 & E1 & E2 & E3 & E4 & -> & F).
  rewrite B in E1. injection E1 as <- <- <-. destruct F as (w & v & W & V & ->). exists (w ++ v). split; [unfold around; rewrite <- app_assoc; reflexivity|]. split.
  - intros H. apply in_app_or in H. destruct H; [eapply (escaped_no_delim _ w); eauto|eapply (escaped_no_delim _ v); eauto].
  - apply escaped_len in W. apply escaped_len in V. apply header_bytes in E4. rewrite zlen_app in *. change (zlen [xor_all (hb ++ bdy)]) with 1 in V. lia.
Qed.
Lemma travel_frame env pub priv rnd m r : travels env pub priv m r ->
  exists f, codec_send env pub rnd None m = Ok (around f) /\ good_frame env priv f r.
Proof.
  intros [e raw Hb E W B F T N ->|e raw k k' Hb E W B F T -> -> P N ->]; unfold codec_send; rewrite is_enable_encrypt_bit, T.
  - assert (K : (match pub with Some k => if false then Some k else None | None => None end) = None) by (destruct pub; reflexivity).
    rewrite K. destruct (message_round_trip env rnd m e raw Hb E W B F T N) as (data & m' & ME & MD).
    destruct (frame_size env None rnd m data m' raw (m_hdr m) (BEnt (encoded e)) ME) as (f & -> & F1 & F2); auto.
    { unfold enc_body. rewrite Hb, E. reflexivity. }
    exists f. rewrite ME. split; [reflexivity|]. split; [auto|]. split; [lia|]. apply MD.
  - destruct (secret_round_trip env k k' rnd m e raw P Hb E W B F N) as (data & m' & ME & MD & _).
    destruct (encryption env k k' rnd raw P (encode_bytes env e raw W E)) as (ct & C1 & _ & C2 & _).
    destruct (frame_size env (Some k) rnd m data m' ct (set_prop (m_hdr m) (enable_encrypt (h_prop (m_hdr m)))) (BEnt (encoded e)) ME) as (f & -> & F1 & F2); auto; try lia.
    { unfold enc_body. rewrite Hb, E. cbn [bind]. rewrite C1. reflexivity. }
    exists f. rewrite ME. split; [reflexivity|]. split; [auto|]. split; [lia|]. exact MD.
Qed.
Lemma travel_all env pub priv ms rs : Forall2 (travels env pub priv) ms rs -> forall rnds, length rnds = length ms ->
  exists fs, Forall2 (fun mr f => codec_send env pub (snd mr) None (fst mr) = Ok (around f)) (combine ms rnds) fs /\ Forall2 (good_frame env priv) fs rs.
Proof.
  induction 1 as [|m r ms rs T F IH]; intros rnds N.
  - exists []. split; constructor.
  - destruct rnds as [|x rnds]; [discriminate|]. destruct (IH rnds) as (fs & A & B); [cbn in N; lia|].
    destruct (travel_frame env pub priv x m r T) as (f & C & D). exists (f :: fs). split; constructor; auto.
Qed.
Lemma end_to_end env pub priv ms rs rnds : Forall2 (travels env pub priv) ms rs -> length rnds = length ms ->
  exists datas, Forall2 (fun mr d => codec_send env pub (snd mr) None (fst mr) = Ok d) (combine ms rnds) datas /\
  forall cs tail, concat cs = concat datas -> reads_ok cs -> quiet_tail tail ->
  receive_all (S (length rs)) env priv [] (map RData cs ++ tail) = (rs, ending tail).
Proof.
  intros T N. destruct (travel_all env pub priv ms rs T rnds N) as (fs & A & B). exists (map around fs). split.
  - clear -A. induction A; cbn [map]; constructor; auto.
  - intros cs tail E R Q. apply (frames_arrive env priv fs); auto.
Qed.

(** ** Any stream, up to the first error *)
Lemma first_error env key cs tail : reads_ok cs -> quiet_tail tail -> manageable (concat cs) ->
  let out := until_error env key (ending tail) (runs (concat cs)) in
  forall fuel, (length (fst out) < fuel)%nat -> receive_all fuel env key [] (map RData cs ++ tail) = out.
Proof.
  intros R Q M out fuel F.
  apply (receive_until env key (2 * length (@nil Z) + length cs + 2 * length (concat cs))%nat [] cs tail fuel); auto.
Qed.
Lemma any_stream env key cs : reads_ok cs -> manageable (concat cs) -> harmless env key (concat cs) ->
  forall ms, calls env key [] (map RData cs) ms <-> ms = heard env key (concat cs).
Proof.
  intros R M P ms. pose proof (calls_heard env key (2 * length (@nil Z) + length cs + 2 * length (concat cs))%nat [] cs) as C. cbn [app] in C.
  split; [|intros ->; apply C; auto]. intros H. eapply calls_fun; [exact H|]. apply C; auto.
Qed.

(** ** Bounds *)
Lemma rfb_cases env key b : 
  (incomplete b /\ read_from_buffer env key b = (ScanNone, b)) \/
  (exists f r, b = 126 :: f ++ 126 :: r /\ ~ In 126 f /\ 
     read_from_buffer env key b = match msg_decode env key (around f) with Ok m => (ScanMsg m, r) | Err e => (ScanErr e, r) | Panic => (ScanPanic, b) end) \/
  (exists x g r, b = (x :: g) ++ r /\ ~ In 126 (x :: g) /\ read_from_buffer env key b = (ScanErr ErrNotFoundPrefixID, r)).
Proof.
  destruct (shapes b) as [|x g r H Hr|f H|f r H].
  - left. split; [left; auto|reflexivity].
  - right. right. exists x, g, r. split; auto. split; auto. apply rfb_garbage; auto.
  - left. split; [right; eauto|apply rfb_open; auto].
  - right. left. exists f, r. split; auto. split; auto. apply rfb_frame; auto.
Qed.
(** What one scan leaves is a suffix, shorter unless nothing was taken. *)
Lemma rfb_suffix env key b sc b' : read_from_buffer env key b = (sc, b') ->
  exists gone, b = gone ++ b' /\
  match sc with ScanNone | ScanPanic => gone = [] | _ => gone <> [] end /\ (sc = ScanNone -> incomplete b).
Proof.
  intros H. destruct (rfb_cases env key b) as [(I & E)|[(f & r & -> & F & E)|(x & g & r & -> & F & E)]]; rewrite E in H.
  - injection H as <- <-. exists []. auto.
  - destruct (msg_decode env key (around f)); injection H as <- <-; [| |exists []; repeat split; congruence];
    (exists (126 :: f ++ [126]); split; [cbn [app]; rewrite <- app_assoc; reflexivity|]; split; congruence).
  - injection H as <- <-. exists (x :: g). repeat split; congruence.
Qed.
(** Decode never reports the size error. *)
Definition fine {A} (r : res A) : Prop := r <> Err ErrBodyTooLong.
Lemma fine_ok {A} (x : A) : fine (Ok x). Proof. discriminate. Qed.
Lemma fine_panic {A} : fine (@Panic A). Proof. discriminate. Qed.
Lemma fine_bind {A B} (r : res A) (f : A -> res B) : fine r -> (forall x, fine (f x)) -> fine (bind r f).
Proof. unfold fine. intros H K. destruct r; cbn [bind]; [apply K| |discriminate]. intros X. injection X as X. congruence. Qed.
Lemma fine_index l i : fine (index l i). Proof. unfold index, fine. destruct (_ || _); [discriminate|]. destruct (nth_error _ _); discriminate. Qed.
Lemma fine_upto l i : fine (upto l i). Proof. unfold upto, fine. destruct (_ || _); discriminate. Qed.
Lemma fine_from l i : fine (from l i). Proof. unfold from, fine. destruct (_ || _); discriminate. Qed.
Lemma fine_unescape n : forall d cs b, (length d <= n)%nat -> fine (unescape d cs b).
Proof.
  induction n; intros d cs b N; destruct d as [|x d]; cbn [length] in N; try discriminate; try lia. cbn [unescape].
  destruct (negb _); [apply IHn; lia|]. destruct d as [|y d]; [discriminate|]. cbn [length] in N.
  destruct (y =? escape_suffix1); [apply IHn; lia|]. destruct (y =? escape_suffix2); [apply IHn; lia|discriminate].
Qed.
Lemma fine_split d : fine (split_checksum d).
Proof.
  unfold split_checksum. cbv zeta. apply fine_bind; [apply fine_index|]. intros x. apply fine_bind; [apply fine_index|]. intros y.
  destruct (negb _); [|destruct (x =? escape_suffix1); [|destruct (x =? escape_suffix2); [|discriminate]]];
  (apply fine_bind; [apply fine_upto|]; intros z; apply fine_ok).
Qed.
Lemma fine_unframe d : fine (unframe d).
Proof.
  unfold unframe. destruct (_ <? 2); [discriminate|]. apply fine_bind; [apply fine_index|]. intros x. apply fine_bind; [apply fine_index|]. intros y.
  destruct (_ || _); [discriminate|]. apply fine_bind; [apply fine_upto|]. intros d0. apply fine_bind; [apply fine_from|]. intros d1.
  destruct (_ =? 0); [discriminate|]. apply fine_bind; [apply fine_split|]. intros [d2 c]. apply fine_bind; [eapply fine_unescape; auto|]. intros [cs b].
  destruct (_ || _); discriminate.
Qed.
Lemma fine_header p : fine (hdr_decode p).
Proof.
  rewrite header_inv. do 12 (destruct p as [|? p]; [discriminate|]). apply fine_bind.
  - unfold parse_uint. destruct (bcd_to_string _); [discriminate|]. destruct (parse_acc _ _); discriminate.
  - intros x. destruct (Z.testbit _ 13); [|discriminate]. destruct p as [|? [|? [|? [|? ?]]]]; discriminate.
Qed.
Lemma fine_decode env key d : fine (msg_decode env key d).
Proof.
  unfold msg_decode. apply fine_bind; [apply fine_unframe|]. intros b. destruct (_ <? _); [discriminate|].
  apply fine_bind; [apply fine_header|]. intros h. apply fine_bind; [apply fine_from|]. intros r. apply fine_bind; [|intros; discriminate].
  unfold decode_body. destruct (negb _); [discriminate|]. apply fine_bind.
  - destruct (is_enable_encrypt _); [|discriminate]. destruct key; [|discriminate]. destruct (decrypt_oaep _ _ _); discriminate.
  - intros q. destruct (decode _ _ _) as [[? ?]| |]; discriminate.
Qed.
Lemma rfb_err env key b b' : read_from_buffer env key b <> (ScanErr ErrBodyTooLong, b').
Proof.
  destruct (rfb_cases env key b) as [(I & E)|[(f & r & -> & F & E)|(x & g & r & -> & F & E)]]; rewrite E; try discriminate.
  pose proof (fine_decode env key (around f)) as D. unfold fine in D. destruct (msg_decode env key (around f)); congruence.
Qed.
(** The whole of a Receive: what it consumed and what it leaves. *)
Inductive outcome (b : bytes) (evs : list read_event) (r : received) (b' : bytes) (evs' : list read_event) : Prop :=
| out_taken ds gone : evs = map RData ds ++ evs' -> b ++ concat ds = gone ++ b' -> gone <> [] ->
    (zlen (b ++ concat ds) <= 65535 \/ ds = []) ->
    (exists m, r = GotMsg m) \/ (exists e, r = GotErr e /\ e <> ErrBodyTooLong) -> outcome b evs r b' evs'
| out_panic ds : evs = map RData ds ++ evs' -> b' = b ++ concat ds -> (zlen b' <= 65535 \/ ds = []) -> r = GotPanic -> outcome b evs r b' evs'
| out_long ds d : evs = map RData (ds ++ [d]) ++ evs' -> b' = b ++ concat (ds ++ [d]) -> r = GotErr ErrBodyTooLong -> 65535 < zlen b' ->
    incomplete (b ++ concat ds) -> (zlen (b ++ concat ds) <= 65535 \/ ds = []) -> outcome b evs r b' evs'
| out_fail ds e : evs = map RData ds ++ RFail e :: evs' -> b' = b ++ concat ds -> incomplete b' -> (zlen b' <= 65535 \/ ds = []) -> r = GotErr e -> outcome b evs r b' evs'
| out_wait ds : evs = map RData ds -> b' = b ++ concat ds -> incomplete b' -> (zlen b' <= 65535 \/ ds = []) -> evs' = [] -> r = Waiting -> outcome b evs r b' evs'.

Lemma outcome_step b d evs r b' evs' : incomplete b -> zlen (b ++ d) <= 65535 -> outcome (b ++ d) evs r b' evs' -> outcome b (RData d :: evs) r b' evs'.
Proof.
  intros I N [ds gone -> E G S R|ds -> -> S ->|ds x -> -> -> L J S|ds e -> -> J S ->|ds -> -> J S -> ->].
  - eapply (out_taken _ _ _ _ _ (d :: ds)); eauto; cbn [map concat app]; rewrite ?app_assoc; auto. left. destruct S as [S| ->]; [auto|cbn [concat]; rewrite app_nil_r; auto].
  - eapply (out_panic _ _ _ _ _ (d :: ds)); eauto; cbn [map concat app]; rewrite ?app_assoc; auto. left. destruct S as [S| ->]; [auto|cbn [concat]; rewrite app_nil_r; auto].
  - eapply (out_long _ _ _ _ _ (d :: ds) x); eauto; cbn [map concat app]; rewrite ?app_assoc; auto. left. destruct S as [S| ->]; [auto|cbn [concat]; rewrite app_nil_r; auto].
  - eapply (out_fail _ _ _ _ _ (d :: ds)); eauto; cbn [map concat app]; rewrite ?app_assoc; auto. left. destruct S as [S| ->]; [auto|cbn [concat]; rewrite app_nil_r; auto].
  - eapply (out_wait _ _ _ _ _ (d :: ds)); eauto; cbn [map concat app]; rewrite ?app_assoc; auto. left. destruct S as [S| ->]; [auto|cbn [concat]; rewrite app_nil_r; auto].
Qed.
Lemma receive_outcome env key evs : forall b r b' evs', receive env key b evs = (r, b', evs') -> outcome b evs r b' evs'.
Proof.
  induction evs as [|ev evs IH]; intros b r b' evs' H; unfold receive in H; destruct (read_from_buffer env key b) as [sc b1] eqn:E;
    destruct (rfb_suffix env key b sc b1 E) as (gone & B & G & I); destruct sc.
  1, 5: injection H as <- <- <-; eapply (out_taken _ _ _ _ _ [] gone); eauto; cbn [concat]; rewrite app_nil_r; auto.
  1, 4: injection H as <- <- <-; eapply (out_taken _ _ _ _ _ [] gone); eauto;
        [cbn [concat]; rewrite app_nil_r; auto|right; eexists; split; [reflexivity|]; intros ->; eapply rfb_err; eauto].
  2, 4: injection H as <- <- <-; subst gone; eapply (out_panic _ _ _ _ _ []); eauto; cbn [concat]; rewrite app_nil_r; auto.
  - cbn in H. injection H as <- <- <-. subst gone. specialize (I eq_refl). cbn [app] in B. subst b1. eapply (out_wait _ _ _ _ _ []); eauto; cbn [concat]; rewrite ?app_nil_r; auto.
  - subst gone. specialize (I eq_refl). cbn [app] in B. subst b1. destruct ev as [d|e].
    + destruct (Z.leb_spec (zlen (b ++ d)) 65535) as [N|N].
      * apply outcome_step; auto. apply IH. rewrite <- receive_more by auto. unfold receive. rewrite E. exact H.
      * cbn [read_loop] in H. replace (zlen (b ++ d) =? 0) with false in H by lia. replace (65535 <? zlen (b ++ d)) with true in H by lia.
        injection H as <- <- <-. eapply (out_long _ _ _ _ _ [] d); eauto; cbn [concat app map]; rewrite ?app_nil_r; auto.
    + cbn [read_loop] in H. injection H as <- <- <-. eapply (out_fail _ _ _ _ _ []); eauto; cbn [concat]; rewrite ?app_nil_r; auto.
Qed.

Lemma suffix_len (a b c d : bytes) : a ++ b = c ++ d -> zlen d <= zlen (a ++ b).
Proof. intros ->. rewrite zlen_app. pose proof (zlen_nonneg c). lia. Qed.
Lemma buffered_bound env key b : buffered env key b -> zlen b <= 65535.
Proof.
  induction 1 as [|b evs m b' evs' _ IH H]; [cbv; congruence|]. apply receive_outcome in H.
  destruct H as [ds gone -> E G S R|ds -> -> S K|ds x -> -> K L J S|ds e -> -> J S K|ds -> -> J S -> K]; try discriminate.
  pose proof (suffix_len _ _ _ _ E). destruct S as [S| ->]; [lia|]. cbn [concat] in *. rewrite app_nil_r in *. lia.
Qed.
Lemma events_reads ds : forall evs, events_ok (map RData ds ++ evs) -> reads_ok ds /\ events_ok evs.
Proof.
  unfold events_ok, reads_ok. intros evs H. apply Forall_app in H. destruct H as (H & H'). split; auto. clear -H.
  induction ds; inversion H; subst; constructor; auto.
Qed.
Lemma receive_bound env key b evs r b' evs' : zlen b <= 65535 -> events_ok evs -> receive env key b evs = (r, b', evs') ->
  zlen b' <= 65535 \/ r = GotErr ErrBodyTooLong /\ zlen b' <= 65535 + 128.
Proof.
  intros B V H. apply receive_outcome in H.
  destruct H as [ds gone -> E G S R|ds -> -> S K|ds x -> -> K L J S|ds e -> -> J S K|ds -> -> J S -> K].
  - left. pose proof (suffix_len _ _ _ _ E). destruct S as [S| ->]; [lia|]. cbn [concat] in *. rewrite app_nil_r in *. lia.
  - left. destruct S as [S| ->]; [lia|]. cbn [concat] in *. rewrite app_nil_r in *. lia.
  - right. split; auto. apply events_reads in V. destruct V as (V & _). unfold reads_ok in V. apply Forall_app in V. destruct V as (_ & V). inversion V; subst.
    rewrite concat_app. cbn [concat]. rewrite app_nil_r, app_assoc, zlen_app. destruct S as [S| ->]; [lia|]. cbn [concat] in *. rewrite app_nil_r in *. lia.
  - left. destruct S as [S| ->]; [lia|]. cbn [concat] in *. rewrite app_nil_r in *. lia.
  - left. destruct S as [S| ->]; [lia|]. cbn [concat] in *. rewrite app_nil_r in *. lia.
Qed.
(** The size error means a frame that was open for 65408 bytes. *)
Lemma too_long_open env key b evs b' evs' : zlen b <= 65535 -> events_ok evs -> receive env key b evs = (GotErr ErrBodyTooLong, b', evs') ->
  exists f d, b' = 126 :: f ++ d /\ ~ In 126 f /\ zlen d <= 128 /\ 65535 < 1 + zlen (f ++ d).
Proof.
  intros B V H. apply receive_outcome in H.
  destruct H as [ds gone -> E G S R|ds -> -> S K|ds x -> -> K L J S|ds e -> -> J S K|ds -> -> J S -> K]; try discriminate.
  - destruct R as [(m & R)|(e & R & N)]; congruence.
  - apply events_reads in V. destruct V as (V & _). unfold reads_ok in V. apply Forall_app in V. destruct V as (_ & V). inversion V; subst.
    rewrite concat_app in *. cbn [concat] in *. rewrite app_nil_r, app_assoc in *. destruct J as [J|(f & J & F)]; rewrite J in *.
    + cbn [app] in L. lia.
    + exists f, x. split; [reflexivity|]. split; auto. split; auto. cbn [app] in L. rewrite zlen_cons in L. lia.
  - injection K as <-. apply events_reads in V. destruct V as (_ & V). inversion V; subst. congruence.
Qed.
(** A frame that is never closed ends in the size error. *)
Lemma never_closed env key evs cs : forall b t, b ++ concat cs = 126 :: t -> ~ In 126 t -> zlen b <= 65535 -> 65535 < zlen (b ++ concat cs) ->
  exists b' evs', receive env key b (map RData cs ++ evs) = (GotErr ErrBodyTooLong, b', evs').
Proof.
  induction cs as [|d cs IH]; intros b t E F B L.
  - cbn [concat] in *. rewrite app_nil_r in *. lia.
  - assert (I : incomplete b).
    { destruct b as [|x b]; [left; auto|]. right. cbn [app] in E. injection E as -> <-. exists b. split; auto. intros H. apply F, in_or_app. auto. }
    cbn [map app concat] in *. destruct (Z.leb_spec (zlen (b ++ d)) 65535) as [N|N].
    + rewrite receive_more by auto. eapply (IH (b ++ d) t); rewrite <- ?app_assoc; auto.
    + unfold receive. rewrite rfb_none by auto. cbn [read_loop]. replace (zlen (b ++ d) =? 0) with false by lia.
      replace (65535 <? zlen (b ++ d)) with true by lia. eauto.
Qed.
(** Going on after it: the buffer keeps growing. *)
Lemma goes_on env key b d evs : incomplete b -> 65535 < zlen b -> receive env key b (RData d :: evs) = (GotErr ErrBodyTooLong, b ++ d, evs).
Proof.
  intros I N. unfold receive. rewrite rfb_none by auto. cbn [read_loop]. pose proof (zlen_nonneg d). rewrite zlen_app.
  replace (zlen b + zlen d =? 0) with false by lia. replace (65535 <? zlen b + zlen d) with true by lia. reflexivity.
Qed.
Lemma grows env key n : exists b f, buffered_any env key b /\ b = 126 :: f /\ ~ In 126 f /\ Z.of_nat n < zlen b.
Proof.
  induction n as [|n (b & f & A & E & F & N)].
  - exists [126], []. split; [|split; [auto|split; [auto|reflexivity]]]. eapply (any_next env key [] [RData [126]]); [constructor| |reflexivity].
    constructor; [cbv; congruence|constructor].
  - destruct (Z.leb_spec (zlen (b ++ [0])) 65535) as [L|L].
    + exists (b ++ [0]), (f ++ [0]). split.
      * eapply (any_next env key b [RData [0]]); [auto|constructor; [cbv; congruence|constructor]|]. rewrite receive_more by (auto; right; eauto).
        unfold receive. rewrite rfb_none; [reflexivity|]. right. exists (f ++ [0]). subst. split; auto. intros H. apply in_app_or in H. destruct H as [H|[H|[]]]; [auto|congruence].
      * subst. split; [reflexivity|]. split; [|rewrite zlen_app; change (zlen [0]) with 1; lia]. intros H. apply in_app_or in H. destruct H as [H|[H|[]]]; [auto|congruence].
    + exists (b ++ [0]), (f ++ [0]). split.
      * eapply (any_next env key b [RData [0]]); [auto|constructor; [cbv; congruence|constructor]|]. 
        unfold receive. rewrite rfb_none by (right; eauto). cbn [read_loop]. replace (zlen (b ++ [0]) =? 0) with false by lia. replace (65535 <? zlen (b ++ [0])) with true by lia. reflexivity.
      * subst. split; [reflexivity|]. split; [|rewrite zlen_app; change (zlen [0]) with 1; lia]. intros H. apply in_app_or in H. destruct H as [H|[H|[]]]; [auto|congruence].
Qed.
(** Progress: an error of the scan has discarded bytes, in order. *)
Lemma progress env key b evs e b' evs' : receive env key b evs = (GotErr e, b', evs') ->
  exists ds, 
  (evs = map RData ds ++ evs' /\ ((exists gone, gone <> [] /\ b ++ concat ds = gone ++ b') \/ e = ErrBodyTooLong /\ 65535 < zlen b' /\ b' = b ++ concat ds)) \/
  (evs = map RData ds ++ RFail e :: evs' /\ b' = b ++ concat ds).
Proof.
  intros H. apply receive_outcome in H.
  destruct H as [ds gone -> E G S R|ds -> -> S K|ds x -> -> K L J S|ds e' -> -> J S K|ds -> -> J S -> K]; try discriminate.
  - exists ds. left. split; auto. left. eauto.
  - injection K as ->. exists (ds ++ [x]). left. split; auto.
  - injection K as <-. exists ds. right. auto.
Qed.

(** ** Resynchronisation *)
Lemma delims_quiet g : ~ In 126 g -> delims g = O. Proof. intros. unfold delims. apply count_occ_not_In; auto. Qed.
Lemma delims_app a b : delims (a ++ b) = (delims a + delims b)%nat. Proof. apply count_occ_app. Qed.
Lemma delims_delim s : delims (126 :: s) = S (delims s). Proof. reflexivity. Qed.
Lemma frames_inside fs : Forall (fun f => ~ In 126 f) fs -> insides (runs (concat (map around fs))) = fs.
Proof. induction 1 as [|f fs H F IH]; [reflexivity|]. cbn [map concat]. rewrite around_cons, runs_frame, insides_frame, IH by auto. reflexivity. Qed.
Lemma by_pairs (P : bytes -> Prop) : (forall g, ~ In 126 g -> P g) -> (forall a b, ~ In 126 a -> ~ In 126 b -> P (a ++ 126 :: b)) ->
  (forall a b g, ~ In 126 a -> ~ In 126 b -> P g -> P (a ++ 126 :: b ++ 126 :: g)) -> forall g, P g.
Proof.
  intros A B C. assert (X : forall n g, (length g <= n)%nat -> P g).
  { induction n as [|n IH]; intros g N; [destruct g; [apply A; auto|cbn in N; lia]|].
    destruct (find_spec g) as [(_ & H)|(a & r & -> & H & _)]; [auto|]. destruct (find_spec r) as [(_ & H')|(b & r' & -> & H' & _)]; [auto|].
    apply C; auto. apply IH. rewrite app_length in N. cbn [length] in N. rewrite app_length in N. cbn [length] in N. lia. }
  intros g. apply (X (length g)). auto.
Qed.
Lemma pair_inside a b g : ~ In 126 a -> ~ In 126 b -> insides (runs (a ++ 126 :: b ++ 126 :: g)) = b :: insides (runs g).
Proof. intros. rewrite insides_app, runs_frame, insides_frame by auto. reflexivity. Qed.
Lemma even_inside g fs : Nat.even (delims g) = true -> Forall (fun f => ~ In 126 f) fs ->
  insides (runs (g ++ concat (map around fs))) = insides (runs g) ++ fs.
Proof.
  intros E F. revert E. pattern g. apply by_pairs; clear g.
  - intros g H _. rewrite insides_app, frames_inside by auto. rewrite runs_quiet by auto. reflexivity.
  - intros a b Ha Hb E. rewrite delims_app, delims_delim, !delims_quiet in E by auto. discriminate.
  - intros a b g Ha Hb IH E. rewrite delims_app, delims_delim, delims_app, delims_delim, !delims_quiet in E by auto.
    rewrite <- app_assoc. cbn [app]. rewrite <- app_assoc. cbn [app]. rewrite !pair_inside by auto. rewrite IH; auto.
Qed.
Lemma closers fs : Forall (fun f => ~ In 126 f) fs -> forall f, ~ In 126 f -> insides (runs (f ++ 126 :: concat (map around fs))) = map (fun _ => []) fs.
Proof.
  induction 1 as [|x fs H F IH]; intros f Hf; cbn [map concat].
  - rewrite insides_app by auto. reflexivity.
  - rewrite insides_app by auto. rewrite around_cons. change (126 :: 126 :: x ++ 126 :: concat (map around fs)) with (126 :: [] ++ 126 :: (x ++ 126 :: concat (map around fs))).
    rewrite runs_frame by auto. rewrite insides_frame, IH by auto. reflexivity.
Qed.
Lemma odd_inside g f fs : Nat.even (delims g) = false -> ~ In 126 f -> Forall (fun f => ~ In 126 f) fs ->
  insides (runs (g ++ around f ++ concat (map around fs))) = insides (runs (g ++ [126])) ++ map (fun _ => []) fs.
Proof.
  intros E Hf F. revert E. rewrite around_cons. pattern g. apply by_pairs; clear g.
  - intros g H E. rewrite delims_quiet in E by auto. discriminate.
  - intros a b Ha Hb _. rewrite <- !app_assoc. cbn [app]. rewrite !pair_inside by auto. rewrite closers by auto. reflexivity.
  - intros a b g Ha Hb IH E. rewrite delims_app, delims_delim, delims_app, delims_delim, !delims_quiet in E by auto.
    rewrite <- !app_assoc. cbn [app]. rewrite <- !app_assoc. cbn [app]. rewrite (pair_inside a b (g ++ _)) by auto. rewrite IH by auto. rewrite (pair_inside a b (g ++ [126])) by auto. reflexivity.
Qed.
Lemma heard_even env key g fs ms : Nat.even (delims g) = true -> Forall2 (good_frame env key) fs ms ->
  heard env key (g ++ concat (map around fs)) = heard env key g ++ ms.
Proof.
  intros E F. unfold heard. rewrite even_inside, flat_map_app; auto.
  - f_equal. induction F as [|f m fs ms (_ & _ & D) F IH]; [reflexivity|]. cbn [flat_map]. rewrite D, IH. reflexivity.
  - clear -F. induction F as [|f m fs ms (H & _) F IH]; constructor; auto.
Qed.
Lemma heard_odd env key g f fs : Nat.even (delims g) = false -> ~ In 126 f -> Forall (fun f => ~ In 126 f) fs ->
  heard env key (g ++ around f ++ concat (map around fs)) = heard env key (g ++ [126]).
Proof.
  intros E Hf F. unfold heard. rewrite odd_inside, flat_map_app by auto. rewrite <- app_nil_r. f_equal. clear. induction fs; [reflexivity|]. cbn [map flat_map]. exact IHfs.
Qed.

Lemma desync env key f fs ms cs : Forall2 (good_frame env key) (f :: fs) ms ->
  concat cs = [126] ++ concat (map around (f :: fs)) -> reads_ok cs -> calls env key [] (map RData cs) [].
Proof.
  intros F E R. assert (Q : Forall (fun f => ~ In 126 f) (f :: fs)) by (clear -F; induction F as [|x m xs ms (H & _) F IH]; constructor; auto).
  inversion Q; subst. assert (I : insides (runs (concat cs)) = [] :: map (fun _ => []) fs).
  { rewrite E. cbn [map concat]. rewrite odd_inside by auto. reflexivity. }
  apply any_stream; auto.
  - rewrite E. unfold manageable. change ([126] ++ ?x) with (126 :: x). rewrite runs_delim. constructor; [cbv; congruence|]. apply (good_until env key Waiting _ ms F).
  - unfold harmless. rewrite I. clear. assert (X : msg_decode env key (around []) <> Panic) by discriminate.
    constructor; auto. induction fs; cbn [map]; constructor; auto.
  - unfold heard. rewrite I. clear. cbn [flat_map]. symmetry. change (flat_map (fun f : bytes => match msg_decode env key (around f) with Ok m => [m] | _ => [] end) (map (fun _ : bytes => []) fs) = []).
    induction fs; [reflexivity|]. exact IHfs.
Qed.
Definition demo_frame : bytes := [15; 255; 0; 2; 1; 56; 0; 19; 128; 0; 0; 7; 9; 9; 95].
Definition demo_msg : message := Message (Header 4095 2 13800138000 7 None) BNil.
Lemma demo_good : good_frame demo_env None demo_frame demo_msg.
Proof. split; [cbv; intuition congruence|]. split; [cbv; congruence|]. vm_compute. reflexivity. Qed.
Lemma resync_false : exists env key g f m, good_frame env key f m /\
  forall n cs, concat cs = g ++ concat (map around (repeat f (S n))) -> reads_ok cs -> calls env key [] (map RData cs) [].
Proof.
  exists demo_env, None, [126], demo_frame, demo_msg. split; [exact demo_good|]. intros n cs E R.
  assert (X : forall k, Forall2 (good_frame demo_env None) (repeat demo_frame k) (repeat demo_msg k)) by (induction k; cbn [repeat]; constructor; auto; exact demo_good).
  exact (desync _ _ demo_frame (repeat demo_frame n) (repeat demo_msg (S n)) cs (X (S n)) E R).
Qed.
Lemma resync_even env key g fs ms cs : Nat.even (delims g) = true -> manageable g -> harmless env key g -> Forall2 (good_frame env key) fs ms ->
  manageable (g ++ concat (map around fs)) -> concat cs = g ++ concat (map around fs) -> reads_ok cs ->
  calls env key [] (map RData cs) (heard env key g ++ ms).
Proof.
  intros E M P F M' C R. apply any_stream; auto; rewrite C; auto.
  - unfold harmless in *. rewrite even_inside; auto.
    + apply Forall_app. split; auto. clear -F. induction F as [|f m fs ms (_ & _ & D) F IH]; constructor; auto. rewrite D. discriminate.
    + clear -F. induction F as [|f m fs ms (H & _) F IH]; constructor; auto.
  - symmetry. apply heard_even; auto.
Qed.

Lemma received_even env key g fs ms cs : Nat.even (delims g) = true -> Forall2 (good_frame env key) fs ms -> concat cs = g ++ concat (map around fs) ->
  reads_ok cs -> manageable (concat cs) -> harmless env key (concat cs) -> forall r, calls env key [] (map RData cs) r <-> r = heard env key g ++ ms.
Proof. intros E F C R M H r. rewrite (any_stream env key cs R M H), C, (heard_even env key g fs ms E F). reflexivity. Qed.
Lemma received_odd env key g f fs cs : Nat.even (delims g) = false -> ~ In 126 f -> Forall (fun f => ~ In 126 f) fs -> concat cs = g ++ around f ++ concat (map around fs) ->
  reads_ok cs -> manageable (concat cs) -> harmless env key (concat cs) -> forall r, calls env key [] (map RData cs) r <-> r = heard env key (g ++ [126]).
Proof. intros E N F C R M H r. rewrite (any_stream env key cs R M H), C, (heard_odd env key g f fs E N F). reflexivity. Qed.
