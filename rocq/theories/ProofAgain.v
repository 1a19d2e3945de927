(** What was read is written again with the bytes it was read from. *)
From Verif Require Import Base LibBase Bits LibBits GoTime Decimal Env EntTerm EntPlat Registry SpecGeo SpecEntity SpecRange SpecBody SpecWire SpecRead SpecAgain
  ProofBody3 ProofBody4 ProofWire ProofWire2 ProofWire3 ProofRead ProofRead2 ProofRead3 ProofRead4
  Message SpecFrame SpecMsg SpecArrive ProofFrame ProofHeader ProofMsg ProofRead5.

Lemma hemi_mark s i c : 0 <= i -> hemi_ok (Z.testbit s i) c -> mark s i (Z.testbit s i || neg6 c) = s.
Proof.
  intros Hi [E H]. unfold neg6. assert (T : trunc6 c = dcoef c) by (unfold trunc6; rewrite E; cbn; lia). rewrite T.
  destruct (Z.testbit s i) eqn:B; cbn [orb mark].
  - rewrite Z.setbit_spec'. apply Z.bits_inj'. intros n Hn. rewrite Z.lor_spec, Z.pow2_bits_eqb by lia. destruct (Z.eqb_spec i n) as [->|]; [rewrite B; reflexivity|apply Bool.orb_false_r].
  - replace (dcoef c <? 0) with false by lia. reflexivity.
Qed.
Lemma hemi_trunc f c : hemi_ok f c -> trunc6 c = dcoef c.
Proof. intros [E _]. unfold trunc6. rewrite E. cbn. lia. Qed.
Lemma hemi_fits f c : hemi_ok f c -> coord_ok c.
Proof. intros H. unfold coord_ok. rewrite (hemi_trunc _ _ H). destruct H as [_ H]. destruct f; lia. Qed.
Lemma hemi_sign f c : hemi_ok f c -> sign_ok (f || neg6 c) c.
Proof. intros H. unfold sign_ok, neg6. rewrite (hemi_trunc _ _ H). destruct H as [_ H]. destruct f; cbn [orb]; [lia|]. destruct (Z.ltb_spec (dcoef c) 0); lia. Qed.
Lemma put_same s i : 0 <= i -> put_bit s i (Z.testbit s i) = s.
Proof.
  intros Hi. unfold put_bit. apply Z.bits_inj'. intros n Hn. destruct (Z.testbit s i) eqn:B.
  - rewrite Z.setbit_eqb by lia. destruct (Z.eqb_spec i n) as [->|]; [rewrite B|]; reflexivity.
  - rewrite Z.clearbit_eqb. destruct (Z.eqb_spec i n) as [->|]; cbn; [rewrite B; reflexivity|apply Bool.andb_true_r].
Qed.
Lemma hemi_or s i c d : 0 <= i -> hemi_ok (Z.testbit s i) c -> hemi_ok (Z.testbit s i) d -> mark s i (Z.testbit s i || neg6 c || neg6 d) = s.
Proof.
  intros Hi H H'. replace (Z.testbit s i || neg6 c || neg6 d) with (Z.testbit s i || neg6 c); [apply hemi_mark; auto|].
  unfold neg6. rewrite (hemi_trunc _ _ H'). destruct H' as [_ H']. destruct (Z.testbit s i); [reflexivity|]. replace (dcoef d <? 0) with false by lia. symmetry. apply Bool.orb_false_r.
Qed.
Lemma time_fits env t : dec_time env t -> time_ok env t.
Proof. intros [H _]. exact H. Qed.

Section Again.
Context (env : Env).

Definition same (fs : list rfld) (gs : list fld) : Prop := forall d r, takes env fs d r -> exists b, d = b ++ r /\ on_wire gs b.
Lemma same_nil : same [] [].
Proof. intros d r H. apply takes_nil in H. subst. exists []. split; [reflexivity|constructor]. Qed.
Lemma same_cons f fs g gs : (forall b d, holds env f b d -> shows g b) -> same fs gs -> same (f :: fs) (g :: gs).
Proof.
  intros H S d r T. apply takes_cons in T as (b & m & -> & Hb & T). destruct (S _ _ T) as (c & -> & C). exists (b ++ c). split; [apply app_assoc|].
  constructor; eauto.
Qed.
Lemma same_must (P : Prop) fs gs : (P -> same fs gs) -> same (Must P :: fs) gs.
Proof. intros S d r T. apply takes_cons in T as (b & m & -> & Hb & T). inversion Hb; subst. apply S; auto. Qed.
Lemma same_app fs gs fs' gs' : same fs gs -> same fs' gs' -> same (fs ++ fs') (gs ++ gs').
Proof.
  intros S S' d r T. apply takes_app in T as (m & T & T'). destruct (S _ _ T) as (b & -> & B). destruct (S' _ _ T') as (b' & -> & B').
  exists (b ++ b'). split; [apply app_assoc|]. apply ow_app; auto.
Qed.
Lemma same_concat {A} (F : A -> list rfld) G l : Forall (fun x => same (F x) (G x)) l -> same (concat (map F l)) (concat (map G l)).
Proof. induction 1; cbn [map concat]; [apply same_nil|apply same_app; auto]. Qed.
Lemma same_num w v fs gs : same fs gs -> same (num w v :: fs) (Num w v :: gs).
Proof. apply same_cons. intros b d H. inversion H; subst. assumption. Qed.
Lemma same_as f fs gs : same fs gs -> same (As f :: fs) (f :: gs).
Proof. apply same_cons. intros b d H. inversion H; subst. assumption. Qed.
Lemma same_rest b fs gs : same fs gs -> same (Rest b :: fs) (Raw b :: gs).
Proof. apply same_cons. intros c d H. inversion H; subst. constructor. Qed.
Lemma same_when t fs gs : same fs gs -> same (When t :: fs) (stamp env t :: gs).
Proof. apply same_cons. intros c d H. inversion H; subst. assumption. Qed.
Lemma same_deg neg c fs gs : same fs gs -> same (Deg neg c :: fs) (coord c :: gs).
Proof.
  apply same_cons. intros b d H. inversion H as [| | | |n0 b0 d0 L B| | | | | | | | | | | | | | | | |]; subst. pose proof (value_bound b B) as V.
  unfold coord. constructor; auto. unfold trunc6. cbn. destruct neg; lia.
Qed.
Lemma same_many {A} w (F : A -> list rfld) G l : Forall (fun x => same (F x) (G x)) l -> same (many w F l) (SpecWire.counted_list w G l).
Proof. intros H. apply same_num, same_concat, H. Qed.

Ltac sm := repeat first [apply same_num | apply same_rest | apply same_when | apply same_deg | apply same_as | apply same_nil].

Lemma same_fix p : dec_loc env p -> same (bare_reading p) (loc_layout env (bare p)).
Proof.
  intros (A & B & C & D & _). unfold bare_reading, fix_reading, loc_layout. cbn [app bare p_alarm p_status p_lat p_lng p_alt p_speed p_dir p_time p_extras map concat].
  unfold loc_south, loc_west. cbn [p_alarm p_status p_lat p_lng]. rewrite hemi_mark, hemi_mark by (auto; lia). sm. apply same_must. intros _. sm.
Qed.
Lemma same_param p : same (param_reading p) (param_layout p).
Proof. destruct p; unfold param_reading, param_layout; [sm|apply same_must; contradiction]. Qed.
Lemma same_media h : same (media_reading h) (media_layout h).
Proof. unfold media_reading, media_layout. sm. Qed.
Lemma same_limits a l : same (limits_reading a l) (limits_layout env a l).
Proof. unfold limits_reading, limits_layout. destruct (Z.testbit a 0); [sm|apply same_must; intros; sm]. Qed.
Lemma same_circle c : dec_circle env c -> same (circle_reading c) (circle_layout env c).
Proof.
  intros (A & B & C & D & _). unfold circle_reading, circle_layout, ci_south, ci_west. rewrite hemi_mark, hemi_mark by (auto; lia).
  apply same_app; [sm|apply same_limits].
Qed.
Lemma same_rect c : dec_rect env c -> same (rect_reading c) (rect_layout env c).
Proof.
  intros (A & B & C & D & E & F & _). unfold rect_reading, rect_layout, re_south, re_west. rewrite hemi_or, hemi_or by (auto; lia).
  apply same_app; [sm|apply same_limits].
Qed.
Lemma same_point p : dec_point p -> same (point_reading p) (point_layout p).
Proof.
  intros (A & B & C & D & E & F & G & G' & H & H'). unfold point_reading, point_layout, pt_south, pt_west. rewrite hemi_mark, hemi_mark by (auto; lia).
  rewrite G', H', put_same, put_same by lia. apply same_app; [sm|]. apply same_app.
  - unfold pair_reading. rewrite <- G'. destruct (pt_long p), (pt_short p); cbn [present]; try contradiction; sm.
  - unfold pair_reading. rewrite <- H'. destruct (pt_speed p), (pt_over p); cbn [present]; try contradiction; sm.
Qed.
Lemma vs_marks (f : vertex -> decimal) s i l : 0 <= i -> Forall (fun v => hemi_ok (Z.testbit s i) (f v)) l ->
  mark s i (Z.testbit s i || existsb (fun v => dcoef (f v) <? 0) l) = s.
Proof.
  intros Hi F. destruct (Z.testbit s i) eqn:B; cbn [orb mark].
  - apply mark_same; auto.
  - replace (existsb _ l) with false; [reflexivity|]. symmetry. induction F as [|v l [_ H] F IH]; [reflexivity|]. cbn [existsb]. rewrite IH. replace (dcoef (f v) <? 0) with false by lia. reflexivity.
Qed.
Lemma vs_sign (f : vertex -> decimal) s i l v : Forall (fun v => hemi_ok (Z.testbit s i) (f v)) l -> In v l ->
  sign_ok (Z.testbit s i || existsb (fun v => dcoef (f v) <? 0) l) (f v).
Proof.
  intros F V. rewrite Forall_forall in F. pose proof (F v V) as H. unfold sign_ok. rewrite (hemi_trunc _ _ H). destruct H as [_ H].
  destruct (Z.testbit s i); cbn [orb]; [lia|]. replace (existsb _ l) with false; [lia|]. symmetry. apply Bool.not_true_iff_false. intros E.
  apply existsb_exists in E as (w & W & E). destruct (F w W) as [_ H']. lia.
Qed.

Lemma same_body e : one_form e -> decoded_ok env e -> same (reading e) (layout env e).
Proof.
  destruct e; cbn [one_form]; intros O R; try contradiction; cbn [reading layout decoded_ok] in *; try (sm; fail);
    try lazymatch goal with |- same (num _ _ :: _) _ => apply same_num end; try (apply same_many, Forall_forall; intros; sm; fail); try (apply same_many, Forall_forall; intros; apply same_param).
  - destruct R as (_ & L & X & P). apply same_app; [apply same_media|]. apply same_app; [apply same_fix, L|]. destruct (a0801_packet _); [|contradiction].
    apply same_must. intros _. sm.
  - destruct R as (_ & F & _). apply same_many. eapply Forall_impl; [|exact F]. intros i (_ & _ & _ & _ & L). apply same_app; [sm|apply same_fix, L].
  - do 2 apply same_num. apply same_many, Forall_forall. intros. sm.
  - unfold key_reading, key_layout. destruct (a0a00_key _) as [[? [?|]]|]; try (apply same_must; contradiction). sm.
  - destruct R as (_ & F & _). apply same_many. eapply Forall_impl; [|exact F]. apply same_circle.
  - destruct R as (_ & F & _). apply same_many. eapply Forall_impl; [|exact F]. apply same_rect.
  - destruct R as (_ & _ & _ & F & _). unfold vs_south, vs_west. rewrite vs_marks, vs_marks; try lia; try (eapply Forall_impl; [|exact F]; intros v (H1 & H2); assumption).
    apply (same_app [_; _] [_; _]); [sm|]. apply same_app; [apply same_limits|]. apply same_many, Forall_forall. intros. sm.
  - destruct R as (_ & _ & _ & _ & F & _). do 2 apply same_num. do 2 apply same_when. apply same_many. eapply Forall_impl; [|exact F]. apply same_point.
  - unfold key_reading, key_layout. destruct (a0a00_key _) as [[? [?|]]|]; try (apply same_must; contradiction). sm.
Qed.
Lemma limits_fits a l : dec_limits env a l -> wf_limits_if env a l.
Proof. unfold dec_limits, wf_limits_if. intros H B. rewrite B in H. destruct H as ((A & _) & (A' & _) & S & D). repeat (split; [assumption|]). assumption. Qed.
Lemma loc_fits p : dec_loc env p -> wf_0200 env (bare p).
Proof.
  intros (A & B & C & D & E & F & G & (H & _) & _). unfold wf_0200, loc_south, loc_west. cbn [bare p_alarm p_status p_lat p_lng p_alt p_speed p_dir p_time p_extras].
  repeat (split; [first [assumption|eapply hemi_fits; eassumption|eapply hemi_sign; eassumption]|]). constructor.
Qed.
Lemma two_signs f c d : hemi_ok f c -> hemi_ok f d -> sign_ok (f || neg6 c || neg6 d) c /\ sign_ok (f || neg6 c || neg6 d) d.
Proof.
  intros H H'. unfold sign_ok, neg6. rewrite (hemi_trunc _ _ H), (hemi_trunc _ _ H'). destruct H as [_ H], H' as [_ H']. destruct f; cbn [orb]; [lia|].
  replace (dcoef c <? 0) with false by lia. replace (dcoef d <? 0) with false by lia. cbn [orb]. lia.
Qed.
Lemma rect_fits c : dec_rect env c -> wf_rect env c.
Proof.
  intros (A & B & C & D & E & F & G). unfold wf_rect, re_south, re_west. destruct (two_signs _ _ _ C E) as [S1 S2], (two_signs _ _ _ D F) as [S3 S4].
  repeat (split; [first [assumption|eapply hemi_fits; eassumption]|]). apply limits_fits, G.
Qed.
Lemma fits e : one_form e -> decoded_ok env e -> wf env e.
Proof.
  destruct e; cbn [one_form]; intros O R; try contradiction; cbn [wf decoded_ok] in *; auto.
  - destruct R as (A & L & X & P). split; auto. split; [apply loc_fits, L|]. destruct (a0801_packet _); auto.
  - destruct R as (A & F & L). split; auto. split; auto. eapply Forall_impl; [|exact F]. intros i (B & C & D & E & P). repeat (split; [assumption|]). apply loc_fits, P.
  - unfold wf_key, full_key in *. destruct (a0a00_key _) as [[? [?|]]|]; try contradiction. destruct R as (A & B & C). split; auto.
  - destruct R as (A & F & L). split; auto. split; auto. eapply Forall_impl; [|exact F]. intros i (B & C & D & E & P & Q). unfold wf_circle, ci_south, ci_west.
    repeat (split; [first [assumption|eapply hemi_fits; eassumption|eapply hemi_sign; eassumption]|]). apply limits_fits, Q.
  - destruct R as (A & F & L). split; auto. split; auto. eapply Forall_impl; [|exact F]. apply rect_fits.
  - destruct R as (A & B & C & F & L). split; auto. split; auto. split; [apply limits_fits, C|]. split; auto.
    apply Forall_forall. intros v V. pose proof (proj1 (Forall_forall _ _) F v V) as (H1 & H2). split; [eapply hemi_fits; eassumption|]. split; [eapply hemi_fits; eassumption|].
    split; [apply (vs_sign vx_lat)|apply (vs_sign vx_lng)]; auto; (eapply Forall_impl; [|exact F]; intros w (W1 & W2); assumption).
  - destruct R as (A & B & (C & _) & (D & _) & F & L). repeat (split; [assumption|]). eapply Forall_impl; [|exact F].
    intros p (B' & C' & D' & E & P & Q & G & G' & H & H'). unfold wf_point, pt_south, pt_west.
    repeat (split; [first [assumption|eapply hemi_fits; eassumption|eapply hemi_sign; eassumption]|]). assumption.
  - destruct R as (A & B & C & (D & _) & (E & _)). repeat (split; [assumption|]). assumption.
  - destruct R as ((A & B & C & (D & _) & (E & _)) & F). split; auto. repeat (split; [assumption|]). assumption.
  - unfold wf_key, full_key in *. destruct (a0a00_key _) as [[? [?|]]|]; try contradiction. destruct R as (A & B & C). split; auto.
Qed.
Lemma again e typ d n : bytes_ok d -> decode env typ d = Ok (e, n) -> one_form e -> exists b rest, d = b ++ rest /\ encode env e = Ok b.
Proof.
  intros Hd D O. destruct (in_range env typ d e n Hd D) as [R _]. pose proof (fits e O R) as W.
  destruct (proj1 (decode_exact env typ d e n Hd) D) as (_ & _ & rest & T & _). destruct (same_body e O R _ _ T) as (b & -> & B).
  destruct (encode_layout env e W) as (b' & E & _ & U). rewrite (U b B) in *. eauto.
Qed.
End Again.

Lemma num_u16 v b : shows (Num 2 v) b -> is_u16 v.
Proof.
  intros H. inversion H as [w' v' b' L B V| | | | |]; subst. pose proof (value_bound b B) as Q. unfold zlen in Q. rewrite L in Q. exact Q.
Qed.
Lemma header_fits h hb : header_is h hb -> hdr_fits h /\ is_u16 (h_id h).
Proof.
  intros (I & P & O). unfold header_layout in O. cbn [app] in O.
  apply ow_inv in O as (b1 & r1 & _ & S1 & O). apply ow_inv in O as (b2 & r2 & _ & S2 & O). apply ow_inv in O as (b3 & r3 & _ & _ & O). apply ow_inv in O as (b4 & r4 & _ & S4 & O).
  apply num_u16 in S1, S2, S4. split; [|assumption]. repeat (split; [assumption|]). destruct (h_packet h) as [[a c]|]; cbn [has] in P; [|congruence].
  apply ow_inv in O as (b5 & r5 & _ & S5 & O). apply ow_inv in O as (b6 & r6 & _ & S6 & O). apply num_u16 in S5, S6. split; assumption.
Qed.
Lemma prop_again p n pk : pk = Z.testbit p 13 -> n = p mod 1024 -> wire_prop p n pk = p.
Proof.
  intros -> ->. unfold wire_prop. rewrite Z.mul_comm, <- Z.div_mod by lia. unfold mark. destruct (Z.testbit p 13) eqn:B; [|reflexivity]. apply mark_same; [exact B|lia].
Qed.
Lemma relay env rnd data p m e : bytes_ok data -> frame p (xor_all p) data -> zlen p < 65536 ->
  msg_decode env None data = Ok m -> m_body m = BEnt e -> one_form e -> takes env (reading e) (after_header (m_hdr m) p) [] ->
  exists m', msg_encode env None rnd m = Ok (data, m').
Proof.
  intros Hd F L D B O T. assert (Np : p <> []).
  { intros ->. destruct F as (w & v & E1 & E2 & ->). inversion E1; subst. cbn [xor_all fold_right app] in *. inversion E2 as [| | |b q r ? ? E3]; subst. inversion E3; subst. vm_compute in D. discriminate. }
  pose proof (frame_carries _ _ Np F) as C. apply message_exact in D as (hb & d & C' & Hh & D); [|exact I|exact Hd].
  pose proof (carries_fun _ _ _ C C') as ->. rewrite (after_is _ _ _ Hh) in T. destruct (header_fits _ _ Hh) as [HF HI].
  pose proof (carries_bytes _ _ C Hd) as Hp. apply bytes_ok_app in Hp as [Hb Hdd]. rewrite zlen_app in L. pose proof (hdr_len _ _ Hh) as HL.
  destruct D as [(_ & D)|(N & plain & OP & D)]; [congruence|]. rewrite B in D. destruct D as (TY & LE & rest & T').
  unfold opened in OP. destruct (Z.testbit (h_prop (m_hdr m)) 10); [destruct OP as (? & ? & _); discriminate|]. subst plain.
  assert (DD : decode env (h_id (m_hdr m)) d = Ok (e, tally e d [])) by (apply decode_exact; [exact Hdd|]; split; [exact TY|]; split; [exact LE|]; exists []; auto).
  destruct (in_range env _ d e _ Hdd DD) as [R _]. pose proof (fits env e O R) as W. destruct (same_body env e O R _ _ T) as (b & E & OB). rewrite app_nil_r in E. subst b.
  pose proof (zlen_nonneg d). pose proof (zlen_nonneg hb). rewrite Z.mod_small in N by lia. destruct (message_layout env rnd m e B W HF d OB) as (data' & m' & q & ME & FR & OQ); [rewrite N; pose proof (Z.mod_pos_bound (h_prop (m_hdr m)) 1024 ltac:(reflexivity)); lia|].
  assert (Q : q = hb ++ d).
  { eapply on_wire_unique; [exact OQ|]. apply ow_app; [|exact OB]. destruct Hh as (_ & HP & HO). rewrite <- TY, prop_again; [exact HO|exact HP|].
    exact N. }
  subst q. exists m'. rewrite ME, (frame_fun _ _ _ _ FR F). reflexivity.
Qed.
