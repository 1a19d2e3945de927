(** Header round trip; lemmas behind C08, C19. *)
From Verif Require Import Base LibBase Bits LibBits Bcd LibBcd Env Registry Message.

(** ** C19 *)
Lemma dropz_eq_iff ds : dropz ds = ds <-> (forall t, ds <> 0 :: t).
Proof.
  split.
  - intros E t ->. cbn in E. pose proof (zlen_dropz_le t). rewrite E in H. zl_in H. lia.
  - intros H. destruct ds; auto. cbn. destruct (Z.eqb_spec z 0); auto. subst. exfalso. eapply H; eauto.
Qed.
Lemma bcd_text_exact s n : Forall (fun c => 48 <= c <= 57) s -> (length s <= 2 * n)%nat ->
  (bcd_to_string (string_to_bcd_n s n) = s <-> forall t, s <> 48 :: t).
Proof.
  intros Hs Hl. destruct (digit_chars s) as (ds & Hd & ->).
  { eapply Forall_impl; [|exact Hs]. intros. unfold is_digit_char. cbn beta in *. lia. }
  rewrite length_chars in Hl. rewrite bcd_roundtrip by auto. split.
  - intros E t Et. apply chars_inj in E. destruct ds as [|d ds]; [discriminate|].
    cbn in Et. inversion Et. assert (d = 0) by lia. subst d.
    eapply (proj1 (dropz_eq_iff (0 :: ds))); [exact E|reflexivity].
  - intros H. f_equal. apply dropz_eq_iff. intros t ->. eapply (H (chars t)). reflexivity.
Qed.
Lemma bcd_text_value s n : Forall (fun c => 48 <= c <= 57) s -> (length s <= 2 * n)%nat ->
  exists z, s = repeat 48 z ++ bcd_to_string (string_to_bcd_n s n).
Proof.
  intros Hs Hl. destruct (digit_chars s) as (ds & Hd & ->).
  { eapply Forall_impl; [|exact Hs]. intros. unfold is_digit_char. cbn beta in *. lia. }
  rewrite length_chars in Hl. rewrite bcd_roundtrip by auto. clear. induction ds.
  - exists 0%nat. auto.
  - cbn [dropz]. destruct (Z.eqb_spec a 0).
    + subst. destruct IHds as [z E]. exists (S z). cbn [chars map repeat app]. f_equal. exact E.
    + exists 0%nat. auto.
Qed.

(** ** Header *)
Definition hdr_size (h : header) : Z := match h_packet h with Some _ => 16 | None => 12 end.
(** The fields fit the wire format. *)
Definition hdr_wf (h : header) : Prop :=
  is_u16 (h_id h) /\ is_u16 (h_prop h) /\ 1 <= h_icc h < 10 ^ 12 /\ is_u16 (h_serial h) /\
  match h_packet h with
  | Some (sum, seq) => is_u16 sum /\ is_u16 seq
  | None => Z.testbit (h_prop h) 13 = false
  end.
(** The header after encoding: the packet flag is set when there is a packet. *)
Definition hdr_sent (h : header) : header :=
  set_prop h (match h_packet h with Some _ => enable_packet (h_prop h) | None => h_prop h end).

Lemma icc_field icc : 0 <= icc < 10 ^ 12 ->
  bcd_to_string (string_to_bcd_n (format_uint icc) 6) = chars (dropz (dec_digits icc)).
Proof.
  intros. unfold format_uint. destruct (dec_digits_spec icc) as (Hd & _ & _); [lia|].
  apply bcd_roundtrip; auto. pose proof (proj2 (zlen_dec_digits icc 12 ltac:(lia) ltac:(lia))). unfold zlen in H0. lia.
Qed.
Lemma icc_parse icc : 1 <= icc < 10 ^ 12 ->
  parse_uint (bcd_to_string (string_to_bcd_n (format_uint icc) 6)) = Ok icc.
Proof.
  intros. rewrite icc_field by lia. rewrite dropz_dec_digits by lia. fold (format_uint icc).
  apply parse_format. lia.
Qed.
Lemma icc_bytes icc : 0 <= icc -> bytes_ok (string_to_bcd_n (format_uint icc) 6).
Proof. intros. apply string_to_bcd_n_bytes. apply dec_digits_spec. auto. Qed.
Lemma icc_zero : parse_uint (bcd_to_string (string_to_bcd_n (format_uint 0) 6)) = Err ErrParse.
Proof. reflexivity. Qed.
Lemma icc_len icc : zlen (string_to_bcd_n (format_uint icc) 6) = 6.
Proof. unfold zlen. rewrite string_to_bcd_n_length. reflexivity. Qed.
Lemma icc_large icc n : 10 ^ 12 <= icc ->
  parse_uint (bcd_to_string (string_to_bcd_n (format_uint icc) 6)) = Ok n -> n <> icc.
Proof.
  intros Hi H. apply bcd_parse_bound in H; [|apply icc_bytes; lia]. rewrite icc_len in H. lia.
Qed.

Lemma hdr_encode_bytes h hb h2 : hdr_encode h = Ok (hb, h2) ->
  h2 = hdr_sent h /\
  hb = w_u16 (h_id h) ++ w_u16 (h_prop h2) ++ string_to_bcd_n (format_uint (h_icc h)) 6 ++ w_u16 (h_serial h) ++
       match h_packet h with Some (a, b) => w_u16 a ++ w_u16 b | None => [] end.
Proof.
  unfold hdr_encode, hdr_sent. intros H.
  destruct (h_packet h) as [[a b]|] eqn:Ep.
  - assert (is_enable_packet (enable_packet (h_prop h)) = true) as E
      by (rewrite is_enable_packet_bit, enable_packet_testbit by lia; apply orb_true_r).
    rewrite E in H. inversion H. split; auto. cbn. rewrite <- app_assoc. reflexivity.
  - destruct (is_enable_packet (h_prop h)); inversion H. split; auto.
Qed.
Lemma hdr_encode_ok h : (h_packet h = None -> Z.testbit (h_prop h) 13 = false) ->
  exists hb, hdr_encode h = Ok (hb, hdr_sent h).
Proof.
  intros H. unfold hdr_encode, hdr_sent. destruct (h_packet h) as [[a b]|].
  - replace (is_enable_packet (enable_packet (h_prop h))) with true by
      (rewrite is_enable_packet_bit, enable_packet_testbit by lia; rewrite orb_true_r; auto). eauto.
  - rewrite is_enable_packet_bit, H by auto. eauto.
Qed.
(** Sum, Seq or not: the decoder follows the flag. *)
Definition pkt_bytes (h : header) : bytes :=
  match h_packet h with Some (a, b) => w_u16 a ++ w_u16 b | None => [] end.

Lemma hdr_read id prop icc serial pk r :
  is_u16 id -> is_u16 prop -> is_u16 serial ->
  Z.testbit prop 13 = (match pk with Some _ => true | None => false end) ->
  match pk with Some (a, b) => is_u16 a /\ is_u16 b | None => True end ->
  hdr_decode (w_u16 id ++ w_u16 prop ++ string_to_bcd_n (format_uint icc) 6 ++ w_u16 serial ++
              (match pk with Some (a, b) => w_u16 a ++ w_u16 b | None => [] end) ++ r) =
  do n <- parse_uint (bcd_to_string (string_to_bcd_n (format_uint icc) 6)) ;
  Ok (Header id prop n serial pk).
Proof.
  intros Hid Hp Hs Hf Hpk. unfold hdr_decode, header_size.
  match goal with |- context[zlen ?l <? 12] => replace (zlen l <? 12) with false end.
  2:{ zl. rewrite icc_len. rewrite !zlen_w_u16. pose proof (zlen_nonneg r).
      match goal with |- context[zlen ?x + zlen r] => pose proof (zlen_nonneg x) end. lia. }
  erewrite rbind_ok by (unfold rmap_err; rewrite r_u16_w by auto; reflexivity).
  erewrite rbind_ok by (unfold rmap_err; rewrite r_u16_w by auto; reflexivity).
  erewrite rbind_ok by (unfold rmap_err; rewrite r_bytes_app by apply icc_len; reflexivity).
  destruct (parse_uint _) as [n| |]; [|reflexivity|reflexivity].
  erewrite rbind_ok by reflexivity.
  erewrite rbind_ok by (unfold rmap_err; rewrite r_u16_w by auto; reflexivity).
  rewrite is_enable_packet_bit, Hf. destruct pk as [[a b]|]; [|reflexivity].
  destruct Hpk. rewrite <- app_assoc.
  erewrite rbind_ok by (apply r_u16_w; auto). erewrite rbind_ok by (apply r_u16_w; auto). reflexivity.
Qed.

Lemma hdr_sent_prop_u16 h : is_u16 (h_prop h) -> is_u16 (h_prop (hdr_sent h)).
Proof. intros. unfold hdr_sent. cbn [h_prop set_prop]. destruct (h_packet h); auto using enable_packet_u16. Qed.
Lemma hdr_sent_bit13 h : (h_packet h = None -> Z.testbit (h_prop h) 13 = false) ->
  Z.testbit (h_prop (hdr_sent h)) 13 = match h_packet h with Some _ => true | None => false end.
Proof.
  intros H. unfold hdr_sent. cbn [h_prop set_prop]. destruct (h_packet h); auto.
  rewrite enable_packet_testbit by lia. apply orb_true_r.
Qed.

(** Everything about an encoded header except the terminal number. *)
Lemma hdr_decode_encoded h hb h2 r :
  is_u16 (h_id h) -> is_u16 (h_prop h) -> is_u16 (h_serial h) ->
  match h_packet h with Some (sum, seq) => is_u16 sum /\ is_u16 seq | None => Z.testbit (h_prop h) 13 = false end ->
  hdr_encode h = Ok (hb, h2) ->
  zlen hb = hdr_size h /\
  hdr_decode (hb ++ r) =
  do n <- parse_uint (bcd_to_string (string_to_bcd_n (format_uint (h_icc h)) 6)) ;
  Ok (Header (h_id h2) (h_prop h2) n (h_serial h2) (h_packet h2)).
Proof.
  intros Hid Hp Hs Hpk H. destruct (hdr_encode_bytes _ _ _ H) as [-> ->]. split.
  - unfold hdr_size. zl. rewrite icc_len, !zlen_w_u16. destruct (h_packet h) as [[? ?]|]; reflexivity.
  - rewrite <- !app_assoc. rewrite hdr_read; auto.
    + apply hdr_sent_prop_u16; auto.
    + apply hdr_sent_bit13. intros E. rewrite E in Hpk. auto.
    + destruct (h_packet h) as [[? ?]|]; auto.
Qed.
Lemma hdr_roundtrip h hb h2 r : hdr_wf h -> hdr_encode h = Ok (hb, h2) -> hdr_decode (hb ++ r) = Ok h2.
Proof.
  intros (Hid & Hp & Hi & Hs & Hpk) H. destruct (hdr_decode_encoded h hb h2 r Hid Hp Hs Hpk H) as [_ ->].
  rewrite icc_parse by auto. destruct (hdr_encode_bytes _ _ _ H) as [-> _]. reflexivity.
Qed.

(** C08 *)
Lemma icc_exact h hb h2 r :
  is_u16 (h_id h) -> is_u16 (h_prop h) -> is_u16 (h_serial h) -> is_u64 (h_icc h) ->
  match h_packet h with Some (sum, seq) => is_u16 sum /\ is_u16 seq | None => Z.testbit (h_prop h) 13 = false end ->
  hdr_encode h = Ok (hb, h2) ->
  ((exists h', hdr_decode (hb ++ r) = Ok h' /\ h_icc h' = h_icc h) <-> 1 <= h_icc h < 10 ^ 12) /\
  (h_icc h = 0 -> hdr_decode (hb ++ r) = Err ErrParse).
Proof.
  intros Hid Hp Hs Hi Hpk H. destruct (hdr_decode_encoded h hb h2 r Hid Hp Hs Hpk H) as [_ ->].
  split; [split|].
  - intros (h' & E & Hh). destruct (parse_uint _) as [n| |] eqn:En; try discriminate.
    cbn in E. inversion E; subst. cbn in Hh. unfold is_u64 in Hi.
    destruct (Z.leb_spec (10 ^ 12) (h_icc h)); [exfalso; eapply icc_large; eauto|].
    destruct (Z.eq_dec (h_icc h) 0) as [Ez|]; [|lia]. rewrite Ez in En. rewrite icc_zero in En. discriminate.
  - intros. rewrite icc_parse by auto. eexists. split; [reflexivity|]. reflexivity.
  - intros ->. reflexivity.
Qed.
Lemma parse_acc_panic s : forall a, parse_acc a s = None \/ exists n, parse_acc a s = Some n.
Proof. intros. destruct (parse_acc a s); eauto. Qed.
Lemma parse_uint_nopanic s : parse_uint s <> Panic.
Proof. unfold parse_uint. destruct s; [discriminate|]. destruct (parse_acc _ _); discriminate. Qed.
