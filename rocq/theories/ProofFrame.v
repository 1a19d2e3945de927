(** Framing: escape, checksum, delimiters. *)
From Verif Require Import Base LibBase Bits Bcd Env Registry Message SpecFrame.

(** ** The model's escape and the specification *)
Lemma escape_app a b : escape (a ++ b) = escape a ++ escape b.
Proof. unfold escape. rewrite map_app, concat_app. reflexivity. Qed.
Lemma escape_cons a b : escape (a :: b) = escape1 a ++ escape b.
Proof. reflexivity. Qed.

Lemma escape_escaped p : escaped p (escape p).
Proof.
  induction p as [|b p IH]; [constructor|]. rewrite escape_cons. unfold escape1, prefix_id, escape_byte, escape_suffix1, escape_suffix2.
  destruct (Z.eqb_spec b 126); [subst; cbn; constructor; auto|].
  destruct (Z.eqb_spec b 125); [subst; cbn; constructor; auto|].
  cbn. constructor; auto.
Qed.
Lemma escaped_escape p w : escaped p w -> w = escape p.
Proof.
  induction 1; rewrite ?escape_cons; subst; auto.
  unfold escape1, prefix_id, escape_byte.
  destruct (Z.eqb_spec b 126); [contradiction|]. destruct (Z.eqb_spec b 125); [contradiction|]. reflexivity.
Qed.
Lemma escaped_fun p q w : escaped p w -> escaped q w -> p = q.
Proof.
  intros H. revert q. induction H; intros q' Hq; inversion Hq; subst; auto; try contradiction; f_equal; auto.
Qed.
Lemma escaped_no_delim p w : escaped p w -> ~ In 126 w.
Proof.
  induction 1; cbn; intuition; lia.
Qed.

Lemma checksum_xor p acc : checksum acc p = Z.lxor acc (xor_all p).
Proof.
  revert acc. induction p; intros; cbn.
  - rewrite Z.lxor_0_r. reflexivity.
  - unfold checksum in *. rewrite IHp. rewrite Z.lxor_assoc. reflexivity.
Qed.

Lemma unescape_escaped p w : escaped p w ->
  forall cs buf, unescape w cs buf = Ok (Z.lxor cs (xor_all p), rev buf ++ p).
Proof.
  induction 1; intros; cbn [unescape xor_all fold_right];
    unfold escape_byte, escape_suffix1, escape_suffix2, prefix_id.
  - rewrite Z.lxor_0_r, app_nil_r. reflexivity.
  - cbn. rewrite IHescaped. cbn. rewrite <- app_assoc, Z.lxor_assoc. reflexivity.
  - cbn. rewrite IHescaped. cbn. rewrite <- app_assoc, Z.lxor_assoc. reflexivity.
  - destruct (Z.eqb_spec b 125); [contradiction|]. cbn [negb].
    rewrite IHescaped. cbn. rewrite <- app_assoc, Z.lxor_assoc. reflexivity.
Qed.

Lemma unescape_inv n w : (length w <= n)%nat -> forall cs buf cs' out, ~ In 126 w ->
  unescape w cs buf = Ok (cs', out) ->
  exists p, escaped p w /\ cs' = Z.lxor cs (xor_all p) /\ out = rev buf ++ p.
Proof.
  revert w. induction n; intros w Hn cs buf cs' out Hni H.
  - destruct w; cbn in Hn; [|lia]. cbn in H. inversion H. exists []. repeat split; [constructor| |].
    + cbn. rewrite Z.lxor_0_r. auto.
    + rewrite app_nil_r. auto.
  - destruct w as [|b w]; cbn in H.
    { inversion H. exists []. repeat split; [constructor| |].
      + cbn. rewrite Z.lxor_0_r. auto.
      + rewrite app_nil_r. auto. }
    cbn in Hn. unfold escape_byte, escape_suffix1, escape_suffix2, prefix_id in H.
    destruct (Z.eqb_spec b 125); cbn [negb] in H.
    + destruct w as [|c w]; [discriminate|]. cbn in Hn.
      destruct (Z.eqb_spec c 1); [|destruct (Z.eqb_spec c 2); [|discriminate]].
      * apply IHn in H; [|lia|cbn in Hni; intuition]. destruct H as (p & Hp & H1 & H2).
        exists (125 :: p). subst. repeat split; [constructor; auto| |].
        -- cbn. rewrite Z.lxor_assoc. auto.
        -- cbn. rewrite <- app_assoc. auto.
      * apply IHn in H; [|lia|cbn in Hni; intuition]. destruct H as (p & Hp & H1 & H2).
        exists (126 :: p). subst. repeat split; [constructor; auto| |].
        -- cbn. rewrite Z.lxor_assoc. auto.
        -- cbn. rewrite <- app_assoc. auto.
    + apply IHn in H; [|lia|cbn in Hni; intuition]. destruct H as (p & Hp & H1 & H2).
      exists (b :: p). subst. repeat split; [constructor; auto| |].
      * cbn in Hni. intuition.
      * cbn. rewrite Z.lxor_assoc. auto.
      * cbn. rewrite <- app_assoc. auto.
Qed.

(** ** Indexing *)
Lemma index_app_last l x : index (l ++ [x]) (zlen (l ++ [x]) - 1) = Ok x.
Proof.
  unfold index. zl. pose proof (zlen_nonneg l).
  replace (_ || _) with false by lia.
  replace (Z.to_nat _) with (length l + 0)%nat by (unfold zlen in *; lia).
  rewrite nth_error_app2 by lia. replace (_ + 0 - _)%nat with 0%nat by lia. reflexivity.
Qed.
Lemma index_app_last2 l x y : index (l ++ [x; y]) (zlen (l ++ [x; y]) - 2) = Ok x.
Proof.
  unfold index. zl. pose proof (zlen_nonneg l).
  replace (_ || _) with false by lia.
  replace (Z.to_nat _) with (length l + 0)%nat by (unfold zlen in *; lia).
  rewrite nth_error_app2 by lia. replace (_ + 0 - _)%nat with 0%nat by lia. reflexivity.
Qed.
Lemma upto_app l r : upto (l ++ r) (zlen l) = Ok l.
Proof.
  unfold upto. rewrite zlen_app. pose proof (zlen_nonneg l). pose proof (zlen_nonneg r).
  replace (_ || _) with false by lia. rewrite zlen_to_nat, firstn_exact. reflexivity.
Qed.
Lemma upto_app' l r n : n = zlen l -> upto (l ++ r) n = Ok l.
Proof. intros ->. apply upto_app. Qed.
Lemma from_app l r n : n = zlen l -> from (l ++ r) n = Ok r.
Proof.
  intros ->. unfold from. rewrite zlen_app. pose proof (zlen_nonneg l). pose proof (zlen_nonneg r).
  replace (_ || _) with false by lia. rewrite zlen_to_nat, skipn_exact. reflexivity.
Qed.

(** An escaped text never ends in 0x7d. *)
Lemma escaped_last p w b w' : escaped p w -> w = w' ++ [b] -> b <> 125.
Proof.
  intros H. revert w'. induction H; intros w' E.
  - destruct w'; discriminate.
  - destruct w' as [|x [|y w'']]; cbn in E; inversion E; subst; [|eapply IHescaped; reflexivity]; lia.
  - destruct w' as [|x [|y w'']]; cbn in E; inversion E; subst; [|eapply IHescaped; reflexivity]; lia.
  - destruct w' as [|x w'']; cbn in E; inversion E; subst; [|eapply IHescaped; reflexivity]; auto.
Qed.

Lemma last_case {A} (l : list A) : l = [] \/ exists l' x, l = l' ++ [x].
Proof. destruct l using rev_ind; [auto|right; eauto]. Qed.

Lemma split_checksum_raw w prev c : prev <> 125 ->
  split_checksum ((w ++ [prev]) ++ [c]) = Ok (w ++ [prev], c).
Proof.
  intros. unfold split_checksum. rewrite index_app_last. cbn [bind].
  rewrite <- app_assoc. cbn [app]. rewrite index_app_last2. cbn [bind].
  unfold escape_byte. destruct (Z.eqb_spec prev 125); [contradiction|]. cbn [negb].
  replace (w ++ [prev; c]) with ((w ++ [prev]) ++ [c]) by (rewrite <- app_assoc; reflexivity).
  rewrite upto_app' by (zl; lia). reflexivity.
Qed.
Lemma split_checksum_esc w c v : (c = 125 /\ v = 1 \/ c = 126 /\ v = 2) ->
  split_checksum (w ++ [125; v]) = Ok (w, c).
Proof.
  intros Hc. unfold split_checksum.
  replace (w ++ [125; v]) with ((w ++ [125]) ++ [v]) at 1 2 by (rewrite <- app_assoc; reflexivity).
  rewrite index_app_last. cbn [bind]. rewrite index_app_last2. cbn [bind].
  unfold escape_byte, escape_suffix1, escape_suffix2, prefix_id. cbn [Z.eqb negb Pos.eqb].
  rewrite upto_app' by (zl; lia). cbn [bind].
  destruct Hc as [[-> ->]|[-> ->]]; reflexivity.
Qed.

Lemma split_checksum_frame p w c v : p <> [] -> escaped p w -> escaped [c] v ->
  split_checksum (w ++ v) = Ok (w, c).
Proof.
  intros Hp Hw Hv. inversion Hv; subst.
  - inversion H2; subst. apply split_checksum_esc. auto.
  - inversion H2; subst. apply split_checksum_esc. auto.
  - inversion H4; subst. destruct (last_case w) as [->|(w' & x & ->)].
    + inversion Hw; subst. contradiction.
    + apply split_checksum_raw. eapply escaped_last; [exact Hw|reflexivity].
Qed.

(** ** unframe *)
Lemma unframe_delimited mid :
  unframe ([126] ++ mid ++ [126]) =
  if zlen mid =? 0 then Err ErrInvalidMessage
  else do (d2, sum) <- split_checksum mid ;
       do (cs, buf) <- unescape d2 0 [] ;
       if (zlen buf =? 0) || negb (cs =? sum) then Err ErrInvalidCheckSum else Ok buf.
Proof.
  unfold unframe.
  assert (L : zlen ([126] ++ mid ++ [126]) = 2 + zlen mid) by (zl; lia).
  rewrite L. pose proof (zlen_nonneg mid).
  replace (2 + zlen mid <? 2) with false by lia.
  replace (index ([126] ++ mid ++ [126]) 0) with (@Ok Z 126) by reflexivity.
  cbn [bind]. rewrite <- L. rewrite app_assoc.
  rewrite index_app_last. cbn [bind]. unfold prefix_id. cbn [Z.eqb Pos.eqb negb orb].
  rewrite upto_app' by (zl; lia). cbn [bind].
  rewrite from_app by (zl; lia). cbn [bind]. reflexivity.
Qed.

Lemma unframe_frame p c data : p <> [] -> frame p c data ->
  unframe data = if xor_all p =? c then Ok p else Err ErrInvalidCheckSum.
Proof.
  intros Hp (w & v & Hw & Hv & ->). rewrite app_assoc with (m := v). rewrite unframe_delimited.
  assert (Hz : zlen (w ++ v) =? 0 = false).
  { assert (v <> []) by (inversion Hv; discriminate). rewrite zlen_app. pose proof (zlen_nonneg w).
    destruct v as [|x v]; [contradiction|]. rewrite zlen_cons. pose proof (zlen_nonneg v). lia. }
  rewrite Hz. erewrite split_checksum_frame by eauto. cbn [bind].
  rewrite (unescape_escaped _ _ Hw). cbn [bind rev app]. rewrite Z.lxor_0_l.
  destruct p; [contradiction|]. rewrite zlen_cons. pose proof (zlen_nonneg p).
  replace (1 + zlen p =? 0) with false by lia. cbn [orb].
  destruct (_ =? c); reflexivity.
Qed.

Lemma unframe_delim data r : unframe data = Ok r -> exists mid, delimited data mid.
Proof.
  unfold unframe, delimited. intros H.
  destruct (Z.ltb_spec (zlen data) 2); [discriminate|].
  destruct data as [|a data]; [zl_in H0; lia|]. destruct (last_case data) as [->|(mid & b & ->)].
  { zl_in H0; lia. }
  exists mid. replace (index (a :: mid ++ [b]) 0) with (@Ok Z a) in H by reflexivity. cbn [bind] in H.
  replace (a :: mid ++ [b]) with ((a :: mid) ++ [b]) in H by reflexivity.
  rewrite index_app_last in H. cbn [bind] in H. unfold prefix_id in H.
  destruct (Z.eqb_spec a 126); [subst|discriminate]. destruct (Z.eqb_spec b 126); [subst|discriminate].
  reflexivity.
Qed.

Lemma split_checksum_inv mid w c : split_checksum mid = Ok (w, c) ->
  exists v, mid = w ++ v /\
    ((v = [c] /\ exists w' x, w = w' ++ [x] /\ x <> 125) \/
     (c = 125 /\ v = [125; 1]) \/ (c = 126 /\ v = [125; 2])).
Proof.
  intros H. destruct (last_case mid) as [->|(m1 & c0 & ->)]; [discriminate|].
  destruct (last_case m1) as [->|(m2 & x & ->)].
  { unfold split_checksum in H. rewrite index_app_last in H. discriminate. }
  unfold split_checksum in H. rewrite index_app_last in H. cbn [bind] in H.
  rewrite <- app_assoc in H. cbn [app] in H. rewrite index_app_last2 in H. cbn [bind] in H.
  unfold escape_byte, escape_suffix1, escape_suffix2, prefix_id in H.
  destruct (Z.eqb_spec x 125); cbn [negb] in H.
  - subst. destruct (Z.eqb_spec c0 1); [|destruct (Z.eqb_spec c0 2); [|discriminate]].
    + subst. rewrite upto_app' in H by (zl; lia). inversion H; subst.
      exists [125; 1]. rewrite <- app_assoc. auto.
    + subst. rewrite upto_app' in H by (zl; lia). inversion H; subst.
      exists [125; 2]. rewrite <- app_assoc. auto.
  - replace (m2 ++ [x; c0]) with ((m2 ++ [x]) ++ [c0]) in H by (rewrite <- app_assoc; reflexivity).
    rewrite upto_app' in H by (zl; lia). inversion H; subst.
    exists [c]. split; [auto|]. left. eauto 6.
Qed.

(** Everything unframe accepts, between delimiters. *)
Lemma unframe_inv data mid p : delimited data mid -> ~ In 126 mid -> unframe data = Ok p ->
  p <> [] /\ exists w v, mid = w ++ v /\ escaped p w /\
    (escaped [xor_all p] v \/ v = [125] /\ xor_all p = 125).
Proof.
  intros -> Hni H. rewrite unframe_delimited in H.
  destruct (zlen mid =? 0); [discriminate|].
  destruct (split_checksum mid) as [[w c]| |] eqn:E; try discriminate. cbn [bind] in H.
  apply split_checksum_inv in E. destruct E as (v & -> & Hv).
  destruct (unescape w 0 []) as [[cs buf]| |] eqn:E; try discriminate. cbn [bind] in H.
  apply (unescape_inv (length w)) in E; [|lia|intros C; apply Hni, in_or_app; auto].
  destruct E as (q & Hq & -> & ->). cbn [rev app] in H. rewrite Z.lxor_0_l in H.
  destruct (zlen q =? 0) eqn:Ez; [discriminate|]. cbn [orb] in H.
  destruct (Z.eqb_spec (xor_all q) c); [|discriminate]. cbn in H. inversion H; subst.
  split. { intros ->. discriminate. }
  exists w, v. split; [auto|]. split; [auto|].
  destruct Hv as [[-> _]|[[Hc ->]|[Hc ->]]].
  - destruct (Z.eq_dec (xor_all p) 125) as [E|E]; [right; rewrite E; auto|left].
    constructor; auto; [|constructor]. intros C. apply Hni, in_or_app. right. left. auto.
  - left. rewrite Hc. repeat constructor.
  - left. rewrite Hc. repeat constructor.
Qed.

(** ** xor algebra *)
Lemma xor_all_app a b : xor_all (a ++ b) = Z.lxor (xor_all a) (xor_all b).
Proof.
  induction a as [|x a IH]; [symmetry; apply Z.lxor_0_l|].
  change (Z.lxor x (xor_all (a ++ b)) = Z.lxor (Z.lxor x (xor_all a)) (xor_all b)).
  rewrite IH, Z.lxor_assoc. reflexivity.
Qed.
Lemma xor_single a x y b : x <> y -> xor_all (a ++ x :: b) <> xor_all (a ++ y :: b).
Proof.
  intros Hne E. apply Hne. rewrite !xor_all_app in E. cbn [xor_all fold_right] in E. fold (xor_all b) in E.
  set (u := xor_all a) in *. set (v := xor_all b) in *.
  assert (forall z, Z.lxor (Z.lxor u (Z.lxor u (Z.lxor z v))) v = z) as K.
  { intros z. rewrite <- (Z.lxor_assoc u u), Z.lxor_nilpotent, Z.lxor_0_l, Z.lxor_assoc, Z.lxor_nilpotent, Z.lxor_0_r. auto. }
  rewrite <- (K x), <- (K y), E. reflexivity.
Qed.
Lemma xor_byte p : bytes_ok p -> is_byte (xor_all p).
Proof.
  induction 1; cbn; [unfold is_byte; lia|]. fold (xor_all l). unfold is_byte in *.
  assert (Z.lxor x (xor_all l) / 256 = 0).
  { change 256 with (2 ^ 8). rewrite <- Z.shiftr_div_pow2 by lia. rewrite Z.shiftr_lxor.
    rewrite !Z.shiftr_div_pow2 by lia. change (2 ^ 8) with 256.
    rewrite !Z.div_small by lia. reflexivity. }
  assert (0 <= Z.lxor x (xor_all l)) by (apply Z.lxor_nonneg; lia).
  lia.
Qed.

(** ** What Encode emits *)
Lemma msg_encode_inv env key rnd m data m' : msg_encode env key rnd m = Ok (data, m') ->
  exists bdy h0 b' id prop hb h2,
    enc_body env key rnd m = Ok (bdy, h0, b') /\ body_id (m_body m) = Ok id /\
    set_body_size (h_prop h0) (u16 (zlen bdy)) = Ok prop /\
    hdr_encode (set_prop (set_id h0 id) prop) = Ok (hb, h2) /\
    m' = Message h2 b' /\ frame (hb ++ bdy) (xor_all (hb ++ bdy)) data.
Proof.
  unfold msg_encode. cbv zeta.
  destruct (enc_body env key rnd m) as [[[bdy h0] b']| |] eqn:E1; try discriminate. cbn [bind].
  destruct (body_id (m_body m)) as [id| |] eqn:E2; try discriminate. cbn [bind].
  destruct (set_body_size (h_prop h0) (u16 (zlen bdy))) as [prop| |] eqn:E3; try discriminate. cbn [bind].
  destruct (hdr_encode (set_prop (set_id h0 id) prop)) as [[hb h2]| |] eqn:E4; try discriminate. cbn [bind].
  intros H. inversion H; subst. exists bdy, h0, b', id, prop, hb, h2.
  split; [auto|]. split; [auto|]. split; [auto|]. split; [auto|]. split; [auto|].
  unfold frame. exists (escape (hb ++ bdy)), (escape [xor_all (hb ++ bdy)]).
  split; [apply escape_escaped|]. split; [apply escape_escaped|].
  rewrite !checksum_xor, Z.lxor_0_l, xor_all_app, escape_app, (Z.lxor_comm (xor_all bdy)), <- !app_assoc.
  reflexivity.
Qed.
Lemma msg_encode_ok env key rnd m bdy h0 b' id prop hb h2 :
  enc_body env key rnd m = Ok (bdy, h0, b') -> body_id (m_body m) = Ok id ->
  set_body_size (h_prop h0) (u16 (zlen bdy)) = Ok prop ->
  hdr_encode (set_prop (set_id h0 id) prop) = Ok (hb, h2) ->
  exists data, msg_encode env key rnd m = Ok (data, Message h2 b') /\
    frame (hb ++ bdy) (xor_all (hb ++ bdy)) data.
Proof.
  intros E1 E2 E3 E4. unfold msg_encode. cbv zeta.
  rewrite E1. cbn [bind]. rewrite E2. cbn [bind]. rewrite E3. cbn [bind]. rewrite E4. cbn [bind].
  eexists. split; [reflexivity|].
  unfold frame. exists (escape (hb ++ bdy)), (escape [xor_all (hb ++ bdy)]).
  split; [apply escape_escaped|]. split; [apply escape_escaped|].
  rewrite !checksum_xor, Z.lxor_0_l, xor_all_app, escape_app, (Z.lxor_comm (xor_all bdy)), <- !app_assoc.
  reflexivity.
Qed.

Lemma frame_delimited p c data : frame p c data ->
  exists mid, data = [126] ++ mid ++ [126] /\ ~ In 126 mid.
Proof.
  intros (w & v & Hw & Hv & ->). exists (w ++ v). split; [rewrite <- app_assoc; auto|].
  intros H. apply in_app_or in H. destruct H; [eapply (escaped_no_delim p); eauto|eapply (escaped_no_delim [c]); eauto].
Qed.

(** ** Statements used by the property files *)
Lemma encode_delimited env key rnd m data m' : msg_encode env key rnd m = Ok (data, m') ->
  exists mid, data = [126] ++ mid ++ [126] /\ ~ In 126 mid.
Proof.
  intros H. apply msg_encode_inv in H. destruct H as (? & ? & ? & ? & ? & ? & ? & _ & _ & _ & _ & _ & H).
  eapply frame_delimited; eauto.
Qed.

Lemma msg_decode_bad_checksum env key p c data : p <> [] -> frame p c data -> c <> xor_all p ->
  msg_decode env key data = Err ErrInvalidCheckSum.
Proof.
  intros Hp Hf Hc. unfold msg_decode. rewrite (unframe_frame _ _ _ Hp Hf).
  destruct (Z.eqb_spec (xor_all p) c); [congruence|]. reflexivity.
Qed.

Lemma msg_decode_unframe env key data m : msg_decode env key data = Ok m ->
  exists p, unframe data = Ok p /\ hdr_decode p = Ok (m_hdr m).
Proof.
  unfold msg_decode. destruct (unframe data) as [p| |]; try discriminate. cbn [bind].
  destruct (zlen p <? header_size); try discriminate.
  destruct (hdr_decode p) as [h| |] eqn:E; try discriminate. cbn [bind].
  destruct (from p _) as [r| |]; try discriminate. cbn [bind].
  destruct (decode_body _ _ _ _) as [b| |]; try discriminate. cbn [bind].
  intros H; inversion H; subst. exists p. auto.
Qed.

(** ** The liberal reading *)
Lemma escaped_reads p w : escaped p w -> reads w p.
Proof. induction 1; constructor; auto. Qed.
Lemma reads_fun w p q : reads w p -> reads w q -> p = q.
Proof.
  intros H. revert q. induction H; intros q' Hq; inversion Hq; subst; auto; try congruence; f_equal; auto.
Qed.
Lemma reads_escaped w p : ~ In 126 w -> reads w p -> escaped p w.
Proof.
  intros Hni H. induction H; [constructor| | |].
  - constructor. apply IHreads. intros C. apply Hni. cbn. auto.
  - constructor. apply IHreads. intros C. apply Hni. cbn. auto.
  - constructor; auto.
    + intros ->. apply Hni. cbn. auto.
    + apply IHreads. intros C. apply Hni. cbn. auto.
Qed.
Lemma unescape_reads w p : reads w p ->
  forall cs buf, unescape w cs buf = Ok (Z.lxor cs (xor_all p), rev buf ++ p).
Proof.
  induction 1; intros; cbn [unescape xor_all fold_right];
    unfold escape_byte, escape_suffix1, escape_suffix2, prefix_id.
  - rewrite Z.lxor_0_r, app_nil_r. reflexivity.
  - cbn. rewrite IHreads. cbn. rewrite <- app_assoc, Z.lxor_assoc. reflexivity.
  - cbn. rewrite IHreads. cbn. rewrite <- app_assoc, Z.lxor_assoc. reflexivity.
  - destruct (Z.eqb_spec b 125); [contradiction|]. cbn [negb]. rewrite IHreads. cbn [rev].
    rewrite <- app_assoc, Z.lxor_assoc. reflexivity.
Qed.
Lemma unescape_reads_inv n w : (length w <= n)%nat -> forall cs buf cs' out,
  unescape w cs buf = Ok (cs', out) ->
  exists p, reads w p /\ cs' = Z.lxor cs (xor_all p) /\ out = rev buf ++ p.
Proof.
  revert w. induction n; intros w Hn cs buf cs' out H.
  - destruct w; cbn in Hn; [|lia]. cbn in H. inversion H. exists []. split; [constructor|]. split.
    + cbn. rewrite Z.lxor_0_r. auto.
    + rewrite app_nil_r. auto.
  - destruct w as [|b w]; cbn in H.
    { inversion H. exists []. split; [constructor|]. split.
      + cbn. rewrite Z.lxor_0_r. auto.
      + rewrite app_nil_r. auto. }
    cbn in Hn. unfold escape_byte, escape_suffix1, escape_suffix2, prefix_id in H.
    destruct (Z.eqb_spec b 125); cbn [negb] in H.
    + destruct w as [|c w]; [discriminate|]. cbn in Hn.
      destruct (Z.eqb_spec c 1); [|destruct (Z.eqb_spec c 2); [|discriminate]].
      * apply IHn in H; [|lia]. destruct H as (p & Hp & H1 & H2).
        exists (125 :: p). subst. split; [constructor; auto|]. split.
        -- cbn. rewrite Z.lxor_assoc. auto.
        -- cbn. rewrite <- app_assoc. auto.
      * apply IHn in H; [|lia]. destruct H as (p & Hp & H1 & H2).
        exists (126 :: p). subst. split; [constructor; auto|]. split.
        -- cbn. rewrite Z.lxor_assoc. auto.
        -- cbn. rewrite <- app_assoc. auto.
    + apply IHn in H; [|lia]. destruct H as (p & Hp & H1 & H2).
      exists (b :: p). subst. split; [constructor; auto|]. split.
      * cbn. rewrite Z.lxor_assoc. auto.
      * cbn. rewrite <- app_assoc. auto.
Qed.
Lemma reads_last p w b w' : reads w p -> w = w' ++ [b] -> b <> 125.
Proof.
  intros H. revert w'. induction H; intros w' E.
  - destruct w'; discriminate.
  - destruct w' as [|x [|y w'']]; cbn in E; inversion E; subst; [|eapply IHreads; reflexivity]; lia.
  - destruct w' as [|x [|y w'']]; cbn in E; inversion E; subst; [|eapply IHreads; reflexivity]; lia.
  - destruct w' as [|x w'']; cbn in E; inversion E; subst; [|eapply IHreads; reflexivity]; auto.
Qed.

Lemma unframe_carries data p : unframe data = Ok p <-> carries data p.
Proof.
  split.
  - intros H. pose proof H as Hd. apply unframe_delim in Hd. destruct Hd as [mid ->].
    rewrite unframe_delimited in H. destruct (zlen mid =? 0); [discriminate|].
    destruct (split_checksum mid) as [[w c]| |] eqn:E; try discriminate. cbn [bind] in H.
    apply split_checksum_inv in E. destruct E as (v & -> & Hv).
    destruct (unescape w 0 []) as [[cs buf]| |] eqn:E; try discriminate. cbn [bind] in H.
    apply (unescape_reads_inv (length w)) in E; [|lia].
    destruct E as (q & Hq & -> & ->). cbn [rev app] in H. rewrite Z.lxor_0_l in H.
    destruct (zlen q =? 0) eqn:Ez; [discriminate|]. cbn [orb] in H.
    destruct (Z.eqb_spec (xor_all q) c); [|discriminate]. cbn in H. inversion H; subst.
    split. { intros ->. discriminate. }
    exists w, v. split; [rewrite <- app_assoc; auto|]. split; auto.
    unfold checksum_sent. destruct Hv as [[-> _]|Hv]; auto.
  - intros (Hp & w & v & -> & Hr & Hv). rewrite app_assoc with (m := v). rewrite unframe_delimited.
    assert (Hw : exists w' x, w = w' ++ [x]).
    { destruct (last_case w) as [->|]; auto. inversion Hr; subst. contradiction. }
    destruct Hw as (w' & x & ->). pose proof (reads_last _ _ _ _ Hr eq_refl) as Hx.
    assert (Hz : zlen ((w' ++ [x]) ++ v) =? 0 = false).
    { zl. pose proof (zlen_nonneg w'). pose proof (zlen_nonneg v). lia. }
    rewrite Hz.
    assert (Hs : split_checksum ((w' ++ [x]) ++ v) = Ok (w' ++ [x], xor_all p)).
    { destruct Hv as [->|[[Hc ->]|[Hc ->]]].
      - apply split_checksum_raw; auto.
      - rewrite Hc. apply split_checksum_esc; auto.
      - rewrite Hc. apply split_checksum_esc; auto. }
    rewrite Hs. cbn [bind]. rewrite (unescape_reads _ _ Hr). cbn [bind rev app].
    rewrite Z.lxor_0_l, Z.eqb_refl.
    replace (zlen p =? 0) with false; [reflexivity|].
    destruct p; [contradiction|]. zl. pose proof (zlen_nonneg p). lia.
Qed.
Lemma carries_fun data p q : carries data p -> carries data q -> p = q.
Proof.
  intros H1 H2. apply unframe_carries in H1. apply unframe_carries in H2. congruence.
Qed.
Lemma frame_carries p data : p <> [] -> frame p (xor_all p) data -> carries data p.
Proof.
  intros Hp Hf. apply unframe_carries. rewrite (unframe_frame _ _ _ Hp Hf), Z.eqb_refl. auto.
Qed.
Lemma frame_exists p : exists data, frame p (xor_all p) data.
Proof.
  exists ([126] ++ escape p ++ escape [xor_all p] ++ [126]). exists (escape p), (escape [xor_all p]).
  auto using escape_escaped.
Qed.
Lemma frame_payload_fun p c q d data : frame p c data -> frame q d data -> p ++ [c] = q ++ [d].
Proof.
  intros (w & v & Hw & Hv & ->) (w' & v' & Hw' & Hv' & E).
  cbn in E. inversion E as [E']. rewrite !app_assoc in E'. apply app_inj_tail in E'. destruct E' as [E' _].
  assert (A : escaped (p ++ [c]) (w ++ v)).
  { rewrite (escaped_escape _ _ Hw), (escaped_escape _ _ Hv), <- escape_app. apply escape_escaped. }
  assert (B : escaped (q ++ [d]) (w' ++ v')).
  { rewrite (escaped_escape _ _ Hw'), (escaped_escape _ _ Hv'), <- escape_app. apply escape_escaped. }
  rewrite E' in A. eapply escaped_fun; eauto.
Qed.
Lemma frame_strict data mid p : delimited data mid -> ~ In 126 mid -> carries data p ->
  frame p (xor_all p) data \/
  (xor_all p = 125 /\ exists w, escaped p w /\ data = [126] ++ w ++ [125] ++ [126]).
Proof.
  intros Hd Hni Hc. apply unframe_carries in Hc. destruct (unframe_inv _ _ _ Hd Hni Hc) as (Hp & w & v & -> & Hw & Hv).
  unfold delimited in Hd. subst. destruct Hv as [Hv|[-> Hx]].
  - left. exists w, v. rewrite <- app_assoc. auto.
  - right. split; auto. exists w. rewrite <- app_assoc. auto.
Qed.

(** C02: what Encode emits reads back as exactly one payload. *)
Lemma encode_carries env key rnd m data m' : msg_encode env key rnd m = Ok (data, m') ->
  exists p, frame p (xor_all p) data /\ carries data p /\ unframe data = Ok p.
Proof.
  intros H. apply msg_encode_inv in H. destruct H as (bdy & h0 & b' & id & prop & hb & h2 & _ & _ & _ & Hh & _ & H).
  exists (hb ++ bdy). split; auto.
  assert (hb ++ bdy <> []).
  { unfold hdr_encode in Hh. destruct (is_enable_packet _).
    - destruct (h_packet _) as [[? ?]|]; inversion Hh. cbn. discriminate.
    - inversion Hh. cbn. discriminate. }
  split; [apply frame_carries; auto|]. rewrite (unframe_frame _ _ _ H0 H), Z.eqb_refl. auto.
Qed.

(** C03 *)
Lemma single_byte_rejected env key a x y b data : x <> y ->
  frame (a ++ y :: b) (xor_all (a ++ x :: b)) data ->
  msg_decode env key data = Err ErrInvalidCheckSum.
Proof.
  intros Hne Hf. eapply msg_decode_bad_checksum; [|eauto|apply xor_single; auto]. destruct a; discriminate.
Qed.
Lemma wrong_checksum_rejected env key p c data : p <> [] -> c <> xor_all p -> frame p c data ->
  msg_decode env key data = Err ErrInvalidCheckSum.
Proof. intros. eapply msg_decode_bad_checksum; eauto. Qed.
Lemma decode_carries env key data m : msg_decode env key data = Ok m ->
  exists p, carries data p /\ hdr_decode p = Ok (m_hdr m).
Proof.
  intros H. apply msg_decode_unframe in H. destruct H as (p & Hp & Hh). exists p.
  rewrite <- unframe_carries. auto.
Qed.
Lemma encoded_corrupted env key rnd m data m' : msg_encode env key rnd m = Ok (data, m') ->
  exists p, frame p (xor_all p) data /\ forall a x y b data', p = a ++ x :: b -> x <> y -> frame (a ++ y :: b) (xor_all p) data' ->
    forall env' key', msg_decode env' key' data' = Err ErrInvalidCheckSum.
Proof.
  intros H. destruct (encode_carries env key rnd m data m' H) as (p & F & _). exists p. split; [exact F|].
  intros a x y b data' -> N F' env' key'. exact (single_byte_rejected env' key' a x y b data' N F').
Qed.
