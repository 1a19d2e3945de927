(** Registered types. *)
From Verif Require Import Base LibBase Bits LibBits Env EntTerm EntPlat Registry Message Session SpecGeo SpecEntity SpecRange SpecBody SpecMsg SpecFrame.
From Verif Require Import LibEntity ProofRound2 LibSafe ProofSafe ProofFrame ProofHeader ProofBody ProofBody2 ProofBody3 ProofBody4 ProofMsg ProofMsg2 Demo Custom SpecCustom.

(** ** The table *)
Lemma table_rev {C} (calls : list (registration C)) : table calls = rev calls.
Proof. unfold table. rewrite <- (app_nil_r (rev calls)). generalize (@nil (registration C)) as acc. induction calls as [|c l IH]; intros acc; [reflexivity|]. cbn [fold_left rev]. rewrite IH, <- app_assoc. reflexivity. Qed.
Lemma item_table_rev {I} (calls : list (item_registration I)) : item_table calls = rev calls.
Proof. unfold item_table. rewrite <- (app_nil_r (rev calls)). generalize (@nil (item_registration I)) as acc. induction calls as [|c l IH]; intros acc; [reflexivity|]. cbn [fold_left rev]. rewrite IH, <- app_assoc. reflexivity. Qed.
Lemma lookup_none {C} (l : list (registration C)) id : lookup l id = None <-> ~ In id (map fst l).
Proof.
  induction l as [|[i f] l IH]; cbn [lookup map fst In]; [tauto|]. destruct (Z.eqb_spec i id); [split; [discriminate|tauto]|]. rewrite IH. tauto.
Qed.
Lemma item_lookup_none {I} (l : list (item_registration I)) id : item_lookup l id = None <-> ~ In id (map fst l).
Proof.
  induction l as [|[i f] l IH]; cbn [item_lookup map fst In]; [tauto|]. destruct (Z.eqb_spec i id); [split; [discriminate|tauto]|]. rewrite IH. tauto.
Qed.
Lemma in_rev_map {A} (l : list (Z * A)) id : In id (map fst (rev l)) <-> In id (map fst l).
Proof. rewrite map_rev. rewrite <- in_rev. tauto. Qed.
Lemma lookup_mid {C} (a b : list (registration C)) id f : ~ In id (map fst a) -> lookup ((a ++ [(id, f)]) ++ b) id = Some f.
Proof.
  induction a as [|[i g] a IH]; cbn [app lookup map fst In]; intros N; [rewrite Z.eqb_refl; reflexivity|].
  destruct (Z.eqb_spec i id); [tauto|]. apply IH. tauto.
Qed.
Lemma lookup_last {C} (calls : list (registration C)) id f : last_call calls id f -> lookup (table calls) id = Some f.
Proof. intros (a & b & -> & N). rewrite table_rev, rev_app_distr. cbn [rev]. apply (@lookup_mid C (rev b) (rev a) id f). rewrite in_rev_map. exact N. Qed.
Lemma lookup_unreg {C} (calls : list (registration C)) id : unregistered calls id -> lookup (table calls) id = None.
Proof. intros N. rewrite table_rev. apply lookup_none. rewrite in_rev_map. exact N. Qed.
Lemma item_lookup_mid {I} (a b : list (item_registration I)) id f : ~ In id (map fst a) -> item_lookup ((a ++ [(id, f)]) ++ b) id = Some f.
Proof.
  induction a as [|[i g] a IH]; cbn [app item_lookup map fst In]; intros N; [rewrite Z.eqb_refl; reflexivity|].
  destruct (Z.eqb_spec i id); [tauto|]. apply IH. tauto.
Qed.
Lemma item_last {I} (calls : list (item_registration I)) id f : last_call calls id f -> item_lookup (item_table calls) id = Some f.
Proof. intros (a & b & -> & N). rewrite item_table_rev, rev_app_distr. cbn [rev]. apply (@item_lookup_mid I (rev b) (rev a) id f). rewrite in_rev_map. exact N. Qed.
Lemma item_unreg {I} (calls : list (item_registration I)) id : unregistered calls id -> item_lookup (item_table calls) id = None.
Proof. intros N. rewrite item_table_rev. apply item_lookup_none. rewrite in_rev_map. exact N. Qed.
Lemma last_or_none {A} (calls : list (Z * A)) id : unregistered calls id \/ exists f, last_call calls id f.
Proof.
  induction calls as [|[i f] l IH]; [left; intros []|]. destruct IH as [U|(g & a & b & -> & N)].
  - destruct (Z.eq_dec i id) as [->|D]; [right; exists f, [], l; auto|left]. intros [X|X]; [exact (D X)|exact (U X)].
  - right. exists g, ((i, f) :: a), b. auto.
Qed.

(** ** The frame of a body of any type *)
Lemma carried_tail {C} env (calls : list (registration C)) id h0 bdy : is_u16 id -> hdr_fits h0 -> zlen bdy mod 65536 <= 1023 ->
  exists prop hb data, set_body_size (h_prop h0) (u16 (zlen bdy)) = Ok prop /\ hdr_encode (set_prop (set_id h0 id) prop) = Ok (hb, hdr_arrives h0 id (zlen bdy)) /\
    data = [prefix_id] ++ escape hb ++ escape bdy ++ escape [checksum (checksum 0 bdy) hb] ++ [prefix_id] /\
  forall priv, am_decode env calls priv data =
    (do b <- any_body env calls priv (hdr_arrives h0 id (zlen bdy)) bdy ; Ok (AMessage (hdr_arrives h0 id (zlen bdy)) b)).
Proof.
  intros Hi Hf Hn. pose proof Hf as (F1 & F2 & F3 & F4).
  assert (Hs : 0 <= zlen bdy mod 65536 <= 1023) by lia.
  pose proof (set_body_size_ok (h_prop h0) (zlen bdy mod 65536) F1 Hs) as S.
  set (h1 := set_prop (set_id h0 id) (h_prop h0 / 1024 * 1024 + zlen bdy mod 65536)).
  assert (P : h_packet h1 = None -> Z.testbit (h_prop h1) 13 = false).
  { cbn [h1 set_prop set_id h_packet h_prop]. intros K. rewrite packet_flag by auto. rewrite K in F4. auto. }
  destruct (hdr_encode_ok h1 P) as (hb & Eh). pose proof (sent_is_arrives h0 id (zlen bdy) Hn) as SA. fold h1 in SA. rewrite SA in Eh.
  eexists _, hb, _. split; [exact S|]. split; [exact Eh|]. split; [reflexivity|]. intros priv.
  set (data := [prefix_id] ++ _).
  assert (F : frame (hb ++ bdy) (xor_all (hb ++ bdy)) data).
  { unfold frame, data. exists (escape (hb ++ bdy)), (escape [xor_all (hb ++ bdy)]). split; [apply escape_escaped|]. split; [apply escape_escaped|].
    rewrite !checksum_xor, Z.lxor_0_l, xor_all_app, escape_app, (Z.lxor_comm (xor_all bdy)), <- !app_assoc. reflexivity. }
  assert (W : hdr_wf h1).
  { split; [exact Hi|]. split; [apply size_u16; auto|]. split; [auto|]. split; [auto|].
    cbn [h1 set_prop set_id h_packet h_prop]. destruct (h_packet h0) as [[a b]|]; auto. rewrite packet_flag; auto. }
  destruct W as (W1 & W2 & W3 & W4 & W5).
  destruct (hdr_decode_encoded h1 hb _ bdy W1 W2 W4 W5 Eh) as (L & _).
  pose proof (hdr_roundtrip h1 hb _ bdy (conj W1 (conj W2 (conj W3 (conj W4 W5)))) Eh) as R.
  unfold am_decode. assert (Hne : hb ++ bdy <> []).
  { intros K. apply (f_equal zlen) in K. rewrite zlen_app, zlen_nil, L in K. unfold hdr_size in K. pose proof (zlen_nonneg bdy). destruct (h_packet h1); lia. }
  rewrite (unframe_frame _ _ _ Hne F), Z.eqb_refl. cbn [bind].
  pose proof (zlen_nonneg bdy). replace (zlen (hb ++ bdy) <? header_size) with false.
  2:{ rewrite zlen_app, L. unfold hdr_size, header_size. destruct (h_packet h1); lia. }
  rewrite R. cbn [bind]. rewrite from_app; [reflexivity|]. rewrite L, is_enable_packet_bit.
  unfold hdr_arrives. cbn [h_prop]. rewrite wire_bits by lia. unfold hdr_size, header_size. cbn [h1 set_prop set_id h_packet].
  destruct (h_packet h0) as [[a b]|]; cbn [has]; [rewrite orb_true_r; reflexivity|]. rewrite F4. reflexivity.
Qed.
Lemma custom_travels {C} env (calls : list (registration C)) h (b : any C) raw f a rnd : any_pointer b = true -> is_u16 (any_id b) -> last_call calls (any_id b) f -> any_enc env b = Ok raw -> f raw = Ok a ->
  hdr_fits h -> Z.testbit (h_prop h) 10 = false -> zlen raw <= 1023 ->
  let h' := hdr_arrives h (any_id b) (zlen raw) in
  exists data, am_encode env None rnd (AMessage h (Some b)) = Ok (data, AMessage h' (Some (any_after b))) /\
  forall key, am_decode env calls key data = Ok (AMessage h' (Some a)).
Proof.
  intros Pt Hi L E D F B N h'. assert (N' : zlen raw mod 65536 <= 1023) by (pose proof (zlen_nonneg raw); rewrite Z.mod_small; lia).
  destruct (carried_tail env calls (any_id b) h raw Hi F N') as (prop & hb & data & E1 & E2 & E3 & E4). exists data. split.
  - unfold am_encode. cbn [am_body am_hdr]. rewrite Pt, E. cbn [negb]. cbn [bind]. cbv zeta. rewrite E1. cbn [bind]. rewrite E2. cbn [bind]. rewrite <- E3. reflexivity.
  - intros key. rewrite E4. unfold any_body. rewrite <- (arrives_size _ (any_id b) _ F N'), Z.eqb_refl. cbn [negb].
    rewrite arrives_flag, B by auto. cbn [bind]. cbn [hdr_arrives h_id]. unfold any_decode. rewrite (lookup_last _ _ _ L), D. reflexivity.
Qed.
Lemma custom_secret {C} env pub priv (calls : list (registration C)) h (b : any C) raw f a rnd : rsa_pair env pub priv ->
  any_pointer b = true -> is_u16 (any_id b) -> last_call calls (any_id b) f -> any_enc env b = Ok raw -> bytes_ok raw -> f raw = Ok a -> hdr_fits h -> cipher_len env pub (zlen raw) <= 1023 ->
  let h' := hdr_arrives (encrypted h) (any_id b) (cipher_len env pub (zlen raw)) in
  exists data, am_encode env (Some pub) rnd (AMessage h (Some b)) = Ok (data, AMessage h' (Some (any_after b))) /\
  am_decode env calls (Some priv) data = Ok (AMessage h' (Some a)) /\ am_decode env calls None data = Err ErrDecryptMessageFailed.
Proof.
  intros P Pt Hi L E Br D F N h'. pose proof P as (K1 & K2 & _). destruct (encryption env pub priv rnd raw P Br) as (ct & C1 & _ & C2 & C3).
  pose proof (cipher_nonneg env pub (zlen raw) K1 (zlen_nonneg raw)) as Hk. pose proof (encrypted_fits _ F) as F'.
  assert (N' : zlen ct mod 65536 <= 1023) by (rewrite C2, Z.mod_small; lia).
  destruct (carried_tail env calls (any_id b) (encrypted h) ct Hi F' N') as (prop & hb & data & E1 & E2 & E3 & E4). exists data. split; [|].
  - unfold am_encode. cbn [am_body am_hdr]. rewrite Pt, E. cbn [negb]. cbn [bind]. rewrite C1. cbn [bind]. cbv zeta.
    change (set_prop h (enable_encrypt (h_prop h))) with (encrypted h). rewrite E1. cbn [bind]. rewrite E2. cbn [bind]. rewrite <- E3. unfold h'. rewrite C2. reflexivity.
  - assert (Fl : is_enable_encrypt (h_prop (hdr_arrives (encrypted h) (any_id b) (zlen ct))) = true).
    { rewrite arrives_flag by auto. unfold encrypted. cbn [h_prop]. rewrite set_is_encrypt, enable_encrypt_testbit by lia. apply orb_true_r. }
    rewrite !E4. unfold any_body. rewrite <- (arrives_size _ (any_id b) _ F' N'), Z.eqb_refl, Fl. cbn [negb]. rewrite C3. cbn [bind hdr_arrives h_id].
    unfold any_decode. rewrite (lookup_last _ _ _ L), D. unfold h'. rewrite C2. split; reflexivity.
Qed.
(** ** Everything else is as before *)
Lemma any_body_same {C} env (calls : list (registration C)) key h d : unregistered calls (h_id h) ->
  any_body env calls key h d = (do b <- decode_body env key h d ; Ok (match b with BEnt e => Some (AEnt e) | _ => None end)).
Proof.
  intros U. unfold any_body, decode_body. destruct (negb _); [reflexivity|]. unfold any_decode. rewrite (lookup_unreg _ _ U).
  assert (G : forall p, match (do (e, _) <- decode env (h_id h) p ; Ok (@AEnt C e)) with Ok a => Ok (Some a) | Err _ => Ok None | Panic => Panic end =
     (do b <- match decode env (h_id h) p with Ok (e, _) => Ok (BEnt e) | Err _ => Ok BNil | Panic => Panic end ; Ok (match b with BEnt e => Some (AEnt e) | _ => None end))).
  { intros p. destruct (decode env (h_id h) p) as [[e n]| |]; reflexivity. }
  destruct (is_enable_encrypt (h_prop h)); [|apply G]. destruct key as [p|]; [|reflexivity]. destruct (decrypt_oaep env p d); cbn [bind]; [apply G|reflexivity|reflexivity].
Qed.
Lemma any_frame {C} env (calls : list (registration C)) key data p : carries data p ->
  am_decode env calls key data = (do h <- hdr_decode p ; do b <- any_body env calls key h (after_header h p) ; Ok (AMessage h b)).
Proof.
  intros K. unfold am_decode. rewrite (proj2 (unframe_carries data p) K). cbn [bind].
  destruct (hdr_decode p) as [h|e|] eqn:E.
  - pose proof (header_len p h E). replace (zlen p <? header_size) with false by (unfold header_size; destruct (Z.testbit (h_prop h) 13); lia).
    cbn [bind]. rewrite (from_header p h E). reflexivity.
  - cbn [bind]. unfold header_size. destruct (Z.ltb_spec (zlen p) 12); auto. rewrite header_inv in E.
    do 12 (destruct p as [|? p]; [injection E as <-; reflexivity|]). exfalso. pose proof (zlen_nonneg p). rewrite !zlen_cons in H. lia.
  - exfalso. eapply header_nopanic; eauto.
Qed.
Lemma unregistered_same {C} env (calls : list (registration C)) key data :
  (forall p h, carries data p -> hdr_decode p = Ok h -> unregistered calls (h_id h)) ->
  am_decode env calls key data = (do m <- msg_decode env key data ; Ok (of_message m)).
Proof.
  intros U. destruct (unframe data) as [p|e|] eqn:F.
  - apply unframe_carries in F. rewrite (any_frame env calls key data p F), (decode_frame env key data p F). destruct (hdr_decode p) as [h| |] eqn:E; try reflexivity. cbn [bind].
    rewrite (any_body_same env calls key h _ (U p h F E)). destruct (decode_body env key h (after_header h p)) as [b| |]; reflexivity.
  - unfold am_decode, msg_decode. rewrite F. reflexivity.
  - unfold am_decode, msg_decode. rewrite F. reflexivity.
Qed.
Lemma builtin_encode {C} env key rnd m e : m_body m = BEnt e ->
  am_encode env key rnd (@of_message C m) = (do (d, m') <- msg_encode env key rnd m ; Ok (d, of_message m')).
Proof.
  intros B. unfold am_encode, msg_encode, enc_body, of_message. rewrite B. cbn [am_body am_hdr any_enc any_id any_after any_pointer negb body_id m_body m_hdr].
  destruct (encode env e) as [raw| |]; [|reflexivity|reflexivity]. cbn [bind].
  destruct key as [pub|]; [destruct (encrypt_oaep env pub rnd raw) as [ct| |]; [|reflexivity|reflexivity]|]; cbn [bind body_id]; cbv zeta;
    match goal with |- context [set_body_size ?a ?b] => destruct (set_body_size a b) as [prop| |]; [|reflexivity|reflexivity] end; cbn [bind];
    match goal with |- context [hdr_encode ?a] => destruct (hdr_encode a) as [[hb h2]| |]; reflexivity end.
Qed.
(** ** No crash *)
Lemma answer_ok h e : (In (h_id h) answer_ids -> entity_id e = h_id h) -> exists n, reply_serial (Message h (BEnt e)) = Ok n.
Proof.
  unfold reply_serial, answer_ids. cbn [m_hdr m_body In]. cbv zeta. intros H.
  repeat match goal with |- exists n, (if h_id h =? ?k then _ else _) = _ => destruct (Z.eqb_spec (h_id h) k) as [Q|_];
    [rewrite Q in H; assert (X : entity_id e = k) by tauto; destruct e; try discriminate X; eauto|] end. eauto.
Qed.
Lemma any_body_safe {C} env (calls : list (registration C)) key h d : harmless calls -> key_ok env key -> bytes_ok d ->
  match any_body env calls key h d with
  | Ok None => True
  | Ok (Some (AEnt e)) => In (h_id h) answer_ids -> entity_id e = h_id h
  | Ok (Some (ACus v)) => cu_nillable C v = true /\ ~ In (h_id h) answer_ids
  | Err e => e = ErrDecryptMessageFailed
  | Panic => False
  end.
Proof.
  intros Hl K Hd. destruct (last_or_none calls (h_id h)) as [U|(f & L)].
  - rewrite (any_body_same env calls key h d U). pose proof (decode_body_ok env key h d K Hd) as Q. destruct (decode_body env key h d) as [b| |]; auto.
    cbn [bind]. destruct Q as [->|(e & -> & Q)]; auto.
  - unfold any_body. destruct (negb _); [exact Logic.I|].
    assert (G : forall p, bytes_ok p -> match (match any_decode env calls (h_id h) p with Ok a => Ok (Some a) | Err _ => Ok None | Panic => Panic end) with
      | Ok None => True
      | Ok (Some (AEnt e)) => In (h_id h) answer_ids -> entity_id e = h_id h
      | Ok (Some (ACus v)) => cu_nillable C v = true /\ ~ In (h_id h) answer_ids
      | Err e => e = ErrDecryptMessageFailed
      | Panic => False end).
    { intros p Hp. unfold any_decode. rewrite (lookup_last _ _ _ L). pose proof (Hl _ _ p L Hp) as Q. destruct (f p) as [[e|v]| |]; auto. }
    destruct (is_enable_encrypt (h_prop h)); [|apply G; auto]. destruct key as [p|]; cbn [key_ok] in K; [|reflexivity]. destruct K as (K1 & K2).
    pose proof (decrypt_ok env p d K1 K2 Hd) as Q. destruct (decrypt_oaep env p d); cbn [bind]; [apply G; auto|reflexivity|contradiction].
Qed.
Lemma custom_safe {C} env (calls : list (registration C)) key data : harmless calls -> key_ok env key -> bytes_ok data ->
  (am_decode env calls key data = Panic <-> exists x, data = [126; x; 126]) /\
  forall m, am_decode env calls key data = Ok m -> inspect m <> Panic.
Proof.
  intros Hl K Hd. destruct (unframe data) as [p|e|] eqn:F.
  - assert (Cr : carries data p) by (apply unframe_carries; exact F). rewrite (any_frame env calls key data p Cr).
    assert (NP : ~ exists x, data = [126; x; 126]) by (intros X; apply unframe_panic in X; congruence).
    destruct (hdr_decode p) as [h|e|] eqn:E; cbn [bind].
    + assert (Hb : bytes_ok (after_header h p)) by (apply bytes_ok_skipn, (carries_bytes data); auto).
      pose proof (any_body_safe env calls key h _ Hl K Hb) as Q. destruct (any_body env calls key h (after_header h p)) as [b| |]; cbn [bind]; [|split; [split; [discriminate|tauto]|discriminate]|contradiction].
      split; [split; [discriminate|tauto]|]. intros m M. injection M as <-. unfold inspect. cbn [am_body]. destruct b as [[e|v]|]; cbn [any_pointer]; [| |discriminate].
      * unfold any_serial. cbn [am_body am_hdr]. destruct (answer_ok h e Q) as (n & ->). discriminate.
      * destruct Q as (-> & Q). unfold any_serial. cbn [am_body am_hdr]. destruct (existsb (Z.eqb (h_id h)) answer_ids) eqn:X; [|discriminate].
        apply existsb_exists in X as (y & Y & Z0). apply Z.eqb_eq in Z0. subst y. contradiction.
    + split; [split; [discriminate|tauto]|discriminate].
    + exfalso. eapply header_nopanic; eauto.
  - assert (NP : ~ exists x, data = [126; x; 126]) by (intros X; apply unframe_panic in X; congruence).
    unfold am_decode. rewrite F. cbn [bind]. split; [split; [discriminate|tauto]|discriminate].
  - assert (P : exists x, data = [126; x; 126]) by (apply unframe_panic; exact F). unfold am_decode. rewrite F. cbn [bind]. split; [tauto|discriminate].
Qed.
Lemma custom_answers {C} h (v : cu C) : let m := AMessage h (Some (ACus v)) in
  (inspect m = Ok (Some 0) <-> cu_nillable C v = true /\ ~ In (h_id h) answer_types) /\ (inspect m = Ok (Some 0) \/ inspect m = Panic).
Proof.
  cbv zeta. unfold inspect, any_serial. cbn [am_body am_hdr any_pointer]. assert (X : existsb (Z.eqb (h_id h)) answer_ids = true <-> In (h_id h) answer_types).
  { rewrite existsb_exists. change answer_ids with answer_types. split; [intros (y & Y & E); apply Z.eqb_eq in E; subst y; exact Y|intros I; exists (h_id h); split; [exact I|apply Z.eqb_refl]]. }
  destruct (cu_nillable C v); [|split; [split; [discriminate|intros [Q _]; discriminate]|auto]]. destruct (existsb _ _); cbn [bind].
  - split; [split; [discriminate|intros [_ Q]; exfalso; apply Q, X; reflexivity]|auto].
  - split; [split; [|reflexivity]|auto]. intros _. split; [reflexivity|]. intros I. apply X in I. discriminate.
Qed.
(** ** Extra items *)
Lemma one_item {I} (calls : list (item_registration I)) x ys : item_arrives calls x ys -> x = None /\ ys = [] \/ exists id d, write_item x = Ok (id :: zlen d :: d) /\
  ((exists y, ys = [y] /\ item_decode calls id d = Ok (y, zlen d)) \/ (ys = [] /\ item_decode calls id d = Err ErrTypeNotRegistered)).
Proof.
  intros [|v Hv U|v f y P L N D|v P U K N]; [left; auto| | |].
  - right. cbn [write_item]. rewrite made_wire by exact Hv. cbn [item_wire]. rewrite value_wire_ok by exact Hv. eexists _, _. split; [reflexivity|]. left. eexists. split; [reflexivity|].
    unfold item_decode. rewrite (item_unreg _ _ U). destruct (extra_item v Hv) as [E _]. rewrite E. reflexivity.
  - right. cbn [write_item]. rewrite P. exists (it_id I v), (it_data I v). pose proof (zlen_nonneg (it_data I v)). unfold u8. rewrite Z.mod_small by lia. split; [reflexivity|]. left. eexists. split; [reflexivity|].
    unfold item_decode. rewrite (item_last _ _ _ L), D. reflexivity.
  - right. cbn [write_item]. rewrite P. exists (it_id I v), (it_data I v). pose proof (zlen_nonneg (it_data I v)). unfold u8. rewrite Z.mod_small by lia. split; [reflexivity|]. right. split; [reflexivity|].
    unfold item_decode. rewrite (item_unreg _ _ U), unknown_err by exact K. reflexivity.
Qed.
Lemma items_read {I} (calls : list (item_registration I)) xs yss tail : Forall2 (item_arrives calls) xs yss -> zlen tail <= 1 -> exists w, write_items xs = Ok w /\
  forall fuel, zlen (w ++ tail) < Z.of_nat fuel -> read_items calls fuel (w ++ tail) = Ok (concat yss).
Proof.
  intros H Ht. induction H as [|x ys xs yss Hx _ (w & W & IH)].
  - exists []. split; [reflexivity|]. cbn [concat app]. intros f Hf. destruct f as [|f]; [pose proof (zlen_nonneg tail); lia|].
    destruct tail as [|a [|b t]]; try reflexivity. rewrite !zlen_cons in Ht. pose proof (zlen_nonneg t). lia.
  - destruct (one_item calls x ys Hx) as [[-> ->]|(id & d & E & A)].
    + exists w. cbn [write_items write_item bind app concat]. rewrite W. split; [reflexivity|exact IH].
    + exists ((id :: zlen d :: d) ++ w). cbn [write_items]. rewrite E, W. split; [reflexivity|]. intros f Hf. rewrite <- app_assoc in *. set (r := w ++ tail) in *.
      destruct f as [|f]; [pose proof (zlen_nonneg ((id :: zlen d :: d) ++ r)); lia|].
      cbn [app read_items]. pose proof (zlen_nonneg d). pose proof (zlen_nonneg r).
      replace (zlen (d ++ r) <? zlen d) with false by (symmetry; apply Z.ltb_ge; rewrite zlen_app; lia).
      cbv zeta. rewrite zlen_to_nat, firstn_exact, skipn_exact.
      assert (J : read_items calls f r = Ok (concat yss)) by (apply IH; cbn [app] in Hf; rewrite !zlen_cons, zlen_app in Hf; unfold bytes in *; lia).
      destruct A as [(y & -> & A)|[-> A]]; rewrite A.
      * rewrite Z.eqb_refl. cbn [negb]. rewrite J. reflexivity.
      * rewrite J. reflexivity.
Qed.
Lemma items_travel {I} (calls : list (item_registration I)) xs yss tail : Forall2 (item_arrives calls) xs yss -> zlen tail <= 1 -> exists w, write_items xs = Ok w /\
  read_all_items calls (w ++ tail) = Ok (concat yss).
Proof. intros H Ht. destruct (items_read calls xs yss tail H Ht) as (w & W & R). exists w. split; [exact W|]. apply R. unfold zlen. lia. Qed.
Lemma items_safe {I} (calls : list (item_registration I)) : (forall id f d, last_call calls id f -> bytes_ok d -> f d <> Panic) -> forall fuel buf, bytes_ok buf ->
  read_items calls fuel buf <> Panic.
Proof.
  intros Sf fuel. induction fuel as [|f IH]; intros buf Hb; [discriminate|]. cbn [read_items]. destruct buf as [|id [|len rest]]; try discriminate.
  destruct (zlen rest <? len); [discriminate|]. cbv zeta. inversion Hb as [|? ? B1 B2]; subst. inversion B2 as [|? ? B3 B4]; subst.
  assert (B5 : bytes_ok (firstn (Z.to_nat len) rest)) by (apply bytes_ok_firstn; exact B4). assert (B6 : bytes_ok (skipn (Z.to_nat len) rest)) by (apply bytes_ok_skipn; exact B4).
  pose proof (IH _ B6) as J. assert (D : item_decode calls id (firstn (Z.to_nat len) rest) <> Panic).
  { unfold item_decode. destruct (last_or_none calls id) as [U|(g & L)].
    - rewrite (item_unreg _ _ U). pose proof (extra_decode_ok id _ B5) as K. destruct (extra_decode id _) as [[v n]| |]; try discriminate. contradiction.
    - rewrite (item_last _ _ _ L). pose proof (Sf _ _ _ L B5) as K. destruct (g _) as [[v n]| |]; try discriminate. contradiction. }
  destruct (item_decode calls id _) as [[v n]|e|]; [|destruct e; try discriminate; exact J|contradiction].
  destruct (negb _); [discriminate|]. destruct (read_items calls f _); [discriminate|discriminate|contradiction].
Qed.
Lemma all_items_safe {I} (calls : list (item_registration I)) buf : (forall id f d, last_call calls id f -> bytes_ok d -> f d <> Panic) -> bytes_ok buf ->
  read_all_items calls buf <> Panic.
Proof. intros S B. apply items_safe; auto. Qed.

Lemma block_decode {I} (calls : list (item_registration I)) id d ys : bytes_ok d ->
  block_gives calls (id, d) ys <->
  (exists y, ys = [y] /\ item_decode calls id d = Ok (y, zlen d)) \/ (ys = [] /\ item_decode calls id d = Err ErrTypeNotRegistered).
Proof.
  intros Hd. split.
  - intros H. inversion H as [i b f w L D|i b f L D|i b v U V W|i b U K]; subst; unfold item_decode.
    + left. exists (ICus w). rewrite (item_last _ _ _ L), D. auto.
    + right. rewrite (item_last _ _ _ L), D. auto.
    + left. exists (IOwn (Extra v [])). rewrite (item_unreg _ _ U). rewrite value_wire_ok in W by exact V.
      destruct (extra_item v V) as [E _]. apply pair_equal_spec in W as [<- <-]. rewrite E. auto.
    + right. rewrite (item_unreg _ _ U), unknown_err by exact K. auto.
  - unfold item_decode. destruct (last_or_none calls id) as [U|(g & L)].
    + rewrite (item_unreg _ _ U). intros [(y & -> & E)|[-> E]].
      * destruct (extra_decode id d) as [[v n]| |] eqn:X; try discriminate. injection E as <- ->.
        destruct (extra_decode_inv _ _ _ Hd X) as [V W]. apply bg_own; auto.
      * apply bg_unknown; [exact U|]. intros K. destruct (extra_decode id d) as [[v n]|e|] eqn:X; try discriminate.
        injection E as ->. unfold known_id in K. cbn [In] in K. unfold extra_decode in X.
        repeat match type of X with (if ?a =? ?b then _ else _) = _ => destruct (Z.eqb_spec a b); [clear K|] end;
          try (clear -X; unfold dec_x32, dec_x16, dec_x8, dec_x11, dec_x12, dec_x13 in X;
               repeat match type of X with context [match ?x with _ => _ end] => destruct x; try discriminate end; discriminate).
        lia.
    + rewrite (item_last _ _ _ L). intros [(y & -> & E)|[-> E]].
      * destruct (g d) as [[v n]| |] eqn:X; try discriminate. injection E as <- ->. eapply bg_custom; eauto.
      * destruct (g d) as [[v n]|e|] eqn:X; try discriminate. injection E as ->. eapply bg_declined; eauto.
Qed.
Lemma items_forward {I} (calls : list (item_registration I)) blocks yss tail :
  Forall (fun x => bytes_ok (snd x)) blocks -> Forall2 (block_gives calls) blocks yss -> zlen tail <= 1 ->
  forall fuel, zlen (concat (map block blocks) ++ tail) < Z.of_nat fuel -> read_items calls fuel (concat (map block blocks) ++ tail) = Ok (concat yss).
Proof.
  intros Hb H Ht. induction H as [|[id d] ys xs yss Hx _ IH].
  - cbn [map concat app]. intros f Hf. destruct f as [|f]; [pose proof (zlen_nonneg tail); lia|].
    destruct tail as [|a [|b t]]; try reflexivity. rewrite !zlen_cons in Ht. pose proof (zlen_nonneg t). lia.
  - apply Forall_cons_iff in Hb as [Hd Hb]. cbn [snd] in Hd. specialize (IH Hb). apply (block_decode calls id d ys Hd) in Hx.
    intros f Hf. cbn [map concat] in *. rewrite <- app_assoc in *. set (r := concat (map block xs) ++ tail) in *.
    unfold block at 1. unfold block in Hf at 1. cbn [fst snd] in *.
    destruct f as [|f]; [pose proof (zlen_nonneg ((id :: zlen d :: d) ++ r)); lia|].
    cbn [app read_items]. pose proof (zlen_nonneg d). pose proof (zlen_nonneg r).
    replace (zlen (d ++ r) <? zlen d) with false by (symmetry; apply Z.ltb_ge; rewrite zlen_app; lia).
    cbv zeta. rewrite zlen_to_nat, firstn_exact, skipn_exact.
    assert (J : read_items calls f r = Ok (concat yss)) by (apply IH; cbn [app] in Hf; rewrite !zlen_cons, zlen_app in Hf; unfold bytes in *; lia).
    destruct Hx as [(y & -> & A)|[-> A]]; rewrite A.
    + rewrite Z.eqb_refl. cbn [negb]. rewrite J. reflexivity.
    + rewrite J. reflexivity.
Qed.
Lemma items_backward {I} (calls : list (item_registration I)) fuel : forall buf ys, bytes_ok buf -> read_items calls fuel buf = Ok ys ->
  exists blocks yss tail, buf = concat (map block blocks) ++ tail /\ zlen tail <= 1 /\ Forall2 (block_gives calls) blocks yss /\ ys = concat yss.
Proof.
  induction fuel as [|f IH]; intros buf ys Hb; [discriminate|]. cbn [read_items]. destruct buf as [|id [|len rest]].
  - intros X. injection X as <-. exists [], [], []. repeat split; auto. cbn. lia.
  - intros X. injection X as <-. exists [], [], [id]. repeat split; auto. cbn. lia.
  - destruct (Z.ltb_spec (zlen rest) len) as [|G]; [discriminate|]. cbv zeta. inversion Hb as [|? ? B1 B2]; subst. inversion B2 as [|? ? B3 B4]; subst.
    set (d := firstn (Z.to_nat len) rest). set (r := skipn (Z.to_nat len) rest).
    assert (B5 : bytes_ok d) by (apply bytes_ok_firstn; exact B4). assert (B6 : bytes_ok r) by (apply bytes_ok_skipn; exact B4).
    assert (L : zlen d = len) by (unfold d, zlen in *; rewrite firstn_length; unfold is_byte in B3; lia).
    assert (E : id :: len :: rest = block (id, d) ++ r) by (unfold block; cbn [fst snd app]; rewrite L; unfold d, r; rewrite firstn_skipn; reflexivity).
    rewrite E. destruct (item_decode calls id d) as [[v n]|e|] eqn:D.
    + destruct (Z.eqb_spec n len) as [->|]; [|discriminate]. cbn [negb]. destruct (read_items calls f r) as [zs| |] eqn:R; try discriminate.
      cbn [bind]. intros X. injection X as <-. destruct (IH _ _ B6 R) as (bs & yss & tail & E1 & E2 & E3 & ->).
      exists ((id, d) :: bs), ([v] :: yss), tail. split; [cbn [map concat]; rewrite E1, <- app_assoc; reflexivity|]. split; auto. split; [|reflexivity].
      constructor; auto. apply block_decode; auto. left. exists v. rewrite L. auto.
    + assert (e = ErrTypeNotRegistered \/ e <> ErrTypeNotRegistered) as [->|N] by (destruct e; auto; right; discriminate).
      * intros R. destruct (IH _ _ B6 R) as (bs & yss & tail & E1 & E2 & E3 & ->).
        exists ((id, d) :: bs), ([] :: yss), tail. split; [cbn [map concat]; rewrite E1, <- app_assoc; reflexivity|]. split; auto. split; [|reflexivity].
        constructor; auto. apply block_decode; auto.
      * destruct e; try discriminate. congruence.
    + discriminate.
Qed.
Lemma items_exact {I} (calls : list (item_registration I)) buf ys : bytes_ok buf ->
  (read_all_items calls buf = Ok ys <->
   exists blocks yss tail, buf = concat (map block blocks) ++ tail /\ zlen tail <= 1 /\ Forall2 (block_gives calls) blocks yss /\ ys = concat yss).
Proof.
  intros Hb. split; [apply items_backward; exact Hb|]. intros (bs & yss & tail & -> & T & F & ->).
  apply items_forward; auto; [|unfold zlen; lia]. apply Forall_forall. intros x X.
  apply Forall_forall. intros b B. apply bytes_ok_app in Hb as [Hb _]. unfold bytes_ok in Hb. rewrite Forall_forall in Hb. apply Hb.
  apply in_concat. exists (block x). split; [apply in_map; exact X|]. right. right. exact B.
Qed.
(** ** In the words of the specification *)
Lemma said_ptr {C} (b : any C) : said_pointer b -> any_pointer b = true.
Proof. destruct b; auto. Qed.
Lemma custom_travels_said {C} env (calls : list (registration C)) h (b : any C) raw f a rnd :
  said_pointer b -> is_u16 (said_id b) -> last_call calls (said_id b) f -> said_bytes env b = Ok raw -> f raw = Ok a ->
  hdr_fits h -> Z.testbit (h_prop h) 10 = false -> zlen raw <= 1023 ->
  let h' := hdr_arrives h (said_id b) (zlen raw) in
  exists data, am_encode env None rnd (AMessage h (Some b)) = Ok (data, AMessage h' (Some (said_after b))) /\
  forall key, am_decode env calls key data = Ok (AMessage h' (Some a)).
Proof. intros Pt. destruct b; apply (custom_travels env calls h _ raw f a rnd), said_ptr, Pt. Qed.
Lemma custom_secret_said {C} env pub priv (calls : list (registration C)) h (b : any C) raw f a rnd : rsa_pair env pub priv ->
  said_pointer b -> is_u16 (said_id b) -> last_call calls (said_id b) f -> said_bytes env b = Ok raw -> bytes_ok raw -> f raw = Ok a ->
  hdr_fits h -> cipher_len env pub (zlen raw) <= 1023 ->
  let h' := hdr_arrives (encrypted h) (said_id b) (cipher_len env pub (zlen raw)) in
  exists data, am_encode env (Some pub) rnd (AMessage h (Some b)) = Ok (data, AMessage h' (Some (said_after b))) /\
  am_decode env calls (Some priv) data = Ok (AMessage h' (Some a)) /\ am_decode env calls None data = Err ErrDecryptMessageFailed.
Proof. intros P Pt. destruct b; apply (custom_secret env pub priv calls h _ raw f a rnd P), said_ptr, Pt. Qed.
