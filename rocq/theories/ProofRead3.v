(** Exactness of the decoders, type by type. *)
From Verif Require Import Base LibBase Bits LibBits Bcd LibBcd GoTime LibCalendar LibTime Decimal Env SpecGeo LibDec
  EntTerm EntPlat Registry SpecEntity SpecRange SpecBody LibEntity LibSafe ProofRound ProofRound2 ProofSafe ProofBody3 SpecWire ProofWire ProofWire2 SpecRead ProofRead ProofRead2.

(** ** Least lengths *)
Definition fmin (f : rfld) : Z :=
  match f with
  | As (Num w _) | Bin w _ | Cut w _ | FText w _ | CText w _ => Z.of_nat w
  | CCut _ => 1 | Deg _ _ => 4 | When _ => 6 | Upto _ => 4 | Nib _ => 10 | Clock _ => 5 | Zip _ => 4 | Sub _ => 2
  | _ => 0
  end.
Definition minlen (fs : list rfld) : Z := fold_right (fun f n => fmin f + n) 0 fs.
Lemma stamp_len s b : shows (Stamp s) b -> length b = 6%nat.
Proof. intros H. inversion H; subst. reflexivity. Qed.
Lemma day_len s b : shows (Day s) b -> length b = 4%nat.
Proof. intros H. inversion H; subst. reflexivity. Qed.
Lemma nib_len k ns : (k + length ns = 20)%nat -> length (pairs (repeat 0 k ++ ns)) = 10%nat.
Proof.
  intros H. assert (L : length (repeat 0 k ++ ns) = 20%nat) by (rewrite app_length, repeat_length; auto).
  pose proof (pairs_length (repeat 0 k ++ ns) ltac:(rewrite L; reflexivity)). lia.
Qed.
Lemma fmin_ok env f b d : holds env f b d -> fmin f <= zlen b.
Proof.
  intros H. unfold zlen. destruct H; cbn [fmin]; rewrite ?app_length; try lia.
  - destruct H; lia.
  - cbn [length]. lia.
  - rewrite (stamp_len _ _ H0). lia.
  - rewrite (day_len _ _ H1). lia.
  - rewrite nib_len by auto. lia.
  - cbn [pairs length]. lia.
Qed.
Lemma minlen_ok env fs : forall d r, takes env fs d r -> minlen fs + zlen r <= zlen d.
Proof.
  induction fs as [|f fs IH]; intros d r H.
  - apply takes_nil in H as ->. cbn. lia.
  - apply takes_cons in H as (b & m & -> & H1 & H2). apply fmin_ok in H1. apply IH in H2. cbn [minlen fold_right]. fold (minlen fs). rewrite zlen_app. lia.
Qed.
Lemma fmin_nonneg f : 0 <= fmin f.
Proof. destruct f as [[]| | | | | | | | | | | | | | | | | | |]; cbn; lia. Qed.
Lemma minlen_nonneg fs : 0 <= minlen fs.
Proof. induction fs as [|f fs IH]; cbn; [lia|]. fold (minlen fs). pose proof (fmin_nonneg f). lia. Qed.
Lemma minlen_app a b : minlen (a ++ b) = minlen a + minlen b.
Proof. induction a as [|f a IH]; cbn [app]; [reflexivity|]. cbn [minlen fold_right]. fold (minlen (a ++ b)). fold (minlen a). lia. Qed.

Section Types.
Context (env : Env) (N : nat).
Notation takes := (takes env).
Notation reads := (reads env N).
Notation exact := (exact env N).
Definition any {A} : A -> Prop := fun _ => True.

Ltac prim := first [apply rd_byte|apply rd_u16|apply rd_u32|apply rd_time|apply rd_date|apply rd_clock|apply rd_zip|apply rd_all|apply rd_text|apply rd_otext].
Ltac noc := intros; exact Logic.I.
(** a field read into the value as it is *)
Ltac fld P := eapply (ex_bind' env N P); [prim|noc|cbv beta; intros ? ?].
Ltac fld_by P L := eapply (ex_bind' env N P); [apply L|noc|cbv beta; intros ? ?].
(** a field that is converted *)
Ltac conv P L := eapply (ex_bind env N P); [apply L|noc|cbv beta; intros ? ?].
Ltac fin := apply ex_ret; intros []; cbn; intuition congruence.
Ltac done := intros []; first [reflexivity|cbn -[Z.testbit limits_reading pair_reading]; rewrite ?app_nil_r; reflexivity].

Lemma rd_param : reads r_param (fun a => a) param_reading no no.
Proof.
  intros d Hd. unfold r_param, rbind. destruct (rd_u32 env N d Hd) as [F1 B1]. split.
  - intros a r E. destruct (r_u32 d) as [[id l]|?|] eqn:E1; try discriminate. destruct (F1 id l eq_refl) as [_ T1].
    destruct (rd_byte env N l (takes_ok _ _ _ _ _ T1 Hd)) as [F2 _].
    destruct (r_byte l) as [[n m]|?|] eqn:E2; try discriminate. destruct (F2 n m eq_refl) as [_ T2].
    destruct (r_bytes n m) as [[v k]|?|] eqn:E3; try discriminate. apply r_bytes_inv in E3 as (-> & L).
    unfold rret in E. injection E as <- <-. split; [exact Logic.I|]. cbn [param_reading pr_id pr_val].
    apply (takes_app env [num 4 id]). exists l. split; auto. apply (takes_app env [num 1 (zlen v)]). exists (v ++ k). rewrite L. split; auto.
    apply takes_one. exists v. split; auto. constructor. constructor.
  - intros a r _ T. destruct a as [[id v]|]; cbn [param_reading pr_id pr_val] in T.
    2: { apply takes_one in T as (b & _ & H). inversion H. contradiction. }
    apply (takes_app env [num 4 id]) in T as (l & T1 & T). apply (takes_app env [num 1 (zlen v)]) in T as (m & T2 & T3).
    apply takes_one in T3 as (b & -> & H3). inversion H3; subst. match goal with K : shows (Raw _) _ |- _ => inversion K; subst end.
    destruct (B1 _ _ Logic.I T1) as (x & E & ->). rewrite E. destruct (rd_byte env N l (takes_ok _ _ _ _ _ T1 Hd)) as [_ B2].
    destruct (B2 _ _ Logic.I T2) as (y & E2 & ->). rewrite E2, r_bytes_app by auto. eexists. split; reflexivity.
Qed.

(** ** Position *)
Lemma st_south_bit s : st_south s = Z.testbit s 2. Proof. apply getb_testbit. lia. Qed.
Lemma st_west_bit s : st_west s = Z.testbit s 3. Proof. apply getb_testbit. lia. Qed.
Lemma ex_fixed : exact (r_0200_fixed env) (fun p => p_extras p = []) fix_reading.
Proof.
  eapply ex_conv.
  - unfold r_0200_fixed. fld p_alarm. fld p_status. rewrite st_south_bit, st_west_bit.
    conv p_lat (rd_deg env N (Z.testbit a0 2)). conv p_lng (rd_deg env N (Z.testbit a0 3)).
    eapply ex_lift; [apply get_geo_point_eq; unfold is_u32 in *; lia|]. cbv beta iota.
    fld p_alt. fld p_speed. fld p_dir. fld p_time. fin.
  - intros [] _. reflexivity.
Qed.
Lemma fixed_len e d r : takes (fix_reading e) d r -> zlen d = 28 + zlen r.
Proof.
  intros T. unfold fix_reading in T.
  repeat (let b := fresh "b" in let m := fresh "m" in let E := fresh "E" in let H := fresh "H" in
    match type of T with SpecRead.takes _ (_ :: _) _ _ => apply takes_cons in T as (b & m & E & H & T) end).
  apply takes_nil in T. subst.
  repeat match goal with K : holds _ (num _ _) _ _ |- _ => apply holds_num in K as (K & _ & _) end.
  repeat match goal with K : holds _ (Deg _ _) _ _ |- _ => inversion K; subst; clear K end.
  match goal with K : holds _ (When _) _ _ |- _ => inversion K; subst; clear K end.
  match goal with K : shows (stamp _ _) _ |- _ => apply stamp_len in K end.
  unfold zlen. rewrite !app_length. lia.
Qed.
Lemma loc_iff d e n : ok N d -> (dec_0200 env d = Ok (e, n) <-> takes (loc_reading e) d [] /\ n = 28).
Proof.
  intros Hd. unfold dec_0200, loc_reading. split.
  - destruct (Z.ltb_spec (zlen d) 28); [discriminate|]. destruct (r_0200_fixed env d) as [[e0 rest]|?|] eqn:E; try discriminate.
    apply ex_fixed in E as (Ex & T); auto. pose proof (takes_ok _ _ _ _ _ T Hd) as Hr.
    destruct (dec_extras (S (length rest)) rest) as [xs|?|] eqn:Ei; try discriminate. cbn [bind]. intros H1. injection H1 as <- <-.
    apply (extras_iff env) in Ei; [|apply Hr|lia]. split.
    + apply takes_app. exists rest. split; [destruct e0; exact T|]. apply takes_one. exists rest. rewrite app_nil_r. auto.
    + pose proof (fixed_len _ _ _ T). lia.
  - intros (T & ->). apply takes_app in T as (rest & T1 & T2). pose proof (fixed_len _ _ _ T1) as L. pose proof (zlen_nonneg rest).
    destruct (Z.ltb_spec (zlen d) 28); [lia|].
    assert (E : r_0200_fixed env d = Ok (with_extras e [], rest)) by (apply ex_fixed; auto; split; auto).
    rewrite E. pose proof (takes_ok _ _ _ _ _ T1 Hd) as Hr.
    apply takes_one in T2 as (b & Eb & Hi). rewrite app_nil_r in Eb. subst b.
    assert (Ei : dec_extras (S (length rest)) rest = Ok (p_extras e)) by (apply (extras_iff env); [apply Hr|lia|auto]).
    rewrite Ei. cbn [bind]. f_equal. f_equal; [destruct e; reflexivity|]. lia.
Qed.
(** the position inside other bodies: 28 bytes, or counted *)
Definition r_bare : R t0200 := rd buf <- r_bytes 28 ; r_0200_of env buf.
Lemma items_nil xs : holds env (Items xs) [] [] <-> xs = [].
Proof.
  split.
  - intros H. inversion H as [| | | | | | | | | | | | | | | | |vs b K| | | |]; subst. inversion K; subst; auto.
    + match goal with Q : extra_val_ok _, O : on_wire _ _ |- _ => pose proof (on_wire_unique _ _ _ O (item_known _ Q)) as U end.
      match goal with Q : ?b ++ ?r = [] |- _ => apply app_eq_nil in Q as [-> ->] end. cbn [item_wire] in U. destruct (value_wire v). discriminate.
    + match goal with O : on_wire _ _ |- _ => apply on_skipped in O as (_ & _ & ->) end. discriminate.
  - intros ->. apply (HItems env [] []). constructor. cbn. lia.
Qed.
Lemma bytes_len n d b r : d = b ++ r -> zlen b = n -> r_bytes n d = Ok (b, r).
Proof. intros -> H. apply r_bytes_app. auto. Qed.
Definition local (f : rfld) : Prop := forall b d d', holds env f b d -> holds env f b d'.
Lemma takes_frame fs : Forall local fs -> forall d r, takes fs d r -> exists b, d = b ++ r /\ forall r', takes fs (b ++ r') r'.
Proof.
  induction 1 as [|f fs Hf Hfs IH]; intros d r T.
  - apply takes_nil in T as ->. exists []. split; auto. intros. constructor.
  - apply takes_cons in T as (b & m & -> & H1 & H2). apply IH in H2 as (c & -> & H2). exists (b ++ c). split; [rewrite app_assoc; auto|].
    intros r'. rewrite <- app_assoc. constructor; auto. eapply Hf; eauto.
Qed.
Lemma local_as f : local (As f). Proof. intros b d d' H. inversion H; subst. constructor; auto. Qed.
Lemma local_deg n c : local (Deg n c). Proof. intros b d d' H. inversion H; subst. constructor; auto. Qed.
Lemma local_when t : local (When t). Proof. intros b d d' H. inversion H; subst. constructor; auto. Qed.
Lemma local_fix e : Forall local (fix_reading e).
Proof. repeat first [apply Forall_nil|apply Forall_cons; [first [apply local_as|apply local_deg|apply local_when]|]]. Qed.
Lemma ok_head b r : ok N (b ++ r) -> ok N b.
Proof. unfold ok. rewrite app_length. intros [H L]. apply bytes_ok_app in H. split; [tauto|lia]. Qed.
Lemma rd_bare : reads r_bare (fun e => e) bare_reading no no.
Proof.
  intros d Hd. unfold r_bare, rbind, r_0200_of, bare_reading. split.
  - intros e r E. destruct (r_bytes 28 d) as [[b l]|?|] eqn:E1; try discriminate. apply r_bytes_inv in E1 as (-> & L).
    apply rlift_inv in E as (E & ->). destruct (dec_0200 env b) as [[e' n]|?|] eqn:E2; try discriminate. cbn [bind] in E. injection E as ->.
    pose proof (ok_head _ _ Hd) as Hb. apply loc_iff in E2 as (T & ->); auto. apply takes_app in T as (m & T1 & T2).
    pose proof (fixed_len _ _ _ T1) as L1. assert (m = []) as -> by (apply zlen_0; lia).
    destruct (takes_frame _ (local_fix e) _ _ T1) as (b' & Eb & F). rewrite app_nil_r in Eb. subst b'.
    split; [exact Logic.I|]. apply takes_app. exists l. split; auto. apply takes_one. exists []. split; auto. constructor.
    apply takes_one in T2 as (x & Ex & H). rewrite app_nil_r in Ex. subst x. apply items_nil. auto.
  - intros e r _ T. apply takes_app in T as (m & T1 & T2). apply takes_one in T2 as (x & -> & H). inversion H; subst. cbn [app] in T1.
    destruct (takes_frame _ (local_fix e) _ _ T1) as (b & -> & F). pose proof (fixed_len _ _ _ T1) as L. rewrite zlen_app in L.
    rewrite r_bytes_app by lia. exists e. split; auto. apply rlift_inv. split; auto.
    assert (E : dec_0200 env b = Ok (e, 28)); [|rewrite E; reflexivity]. apply loc_iff; [eapply ok_head; eauto|]. split; auto.
    apply takes_app. exists []. split; [rewrite <- (app_nil_r b); apply F|]. apply takes_one. exists []. split; auto. apply items_nil. auto.
Qed.
Lemma rd_sub : reads (r_0704_item env) (fun e => e) (fun e => [Sub (loc_reading e)]) no no.
Proof.
  intros d Hd. unfold r_0704_item, rbind, r_0200_of. destruct (rd_u16 env N d Hd) as [F B']. split.
  - intros e r E. destruct (r_u16 d) as [[n l]|?|] eqn:E1; try discriminate. destruct (F n l eq_refl) as [_ T].
    apply takes_one in T as (c & -> & H). apply holds_num in H as (Hl & Hb & <-).
    destruct (r_bytes (value c) l) as [[b m]|?|] eqn:E2; try discriminate. apply r_bytes_inv in E2 as (-> & L).
    apply rlift_inv in E as (E & ->). destruct (dec_0200 env b) as [[e' n]|?|] eqn:E3; try discriminate. cbn [bind] in E. injection E as ->.
    apply loc_iff in E3 as (T & _); [|eapply ok_head, ok_tail; eauto].
    split; [exact Logic.I|]. apply takes_one. exists (c ++ b). rewrite app_assoc. split; auto. constructor; auto.
  - intros e r _ T. apply takes_one in T as (x & -> & H). inversion H; subst.
    destruct (B' (value c) (b ++ r) Logic.I) as (n & E & En). { apply takes_one. exists c. rewrite app_assoc. split; auto. apply holds_num. auto. }
    rewrite E. subst n. rewrite r_bytes_app by auto. exists e. split; auto. apply rlift_inv. split; auto.
    assert (E3 : dec_0200 env b = Ok (e, 28)); [|rewrite E3; reflexivity]. apply loc_iff; auto. eapply ok_head, ok_tail. rewrite app_assoc. exact Hd.
Qed.

(** ** Parts of bodies *)
Ltac sprim := first [prim|apply rd_param|apply rd_bare|apply rd_sub].
Ltac sfld P := eapply (ex_bind' env N P); [sprim|noc|cbv beta; intros ? ?].
(** a list, its length read before *)
Ltac lst P L := eapply (ex_bind' env N P); [eapply rd_list_z; [unfold is_byte, is_u16 in *; lia|apply L]|cbv beta; intros; tauto|cbv beta; intros ? ?].
Ltac parts tac := eapply (ex_reads' env N) with (P := fun _ => True); [tac|exact (fun _ => Logic.I)|done].

Lemma rd_head : reads r_0800 (fun a => a) media_reading no no.
Proof. parts ltac:(unfold r_0800; fld a0800_media; fld a0800_type; fld a0800_coding; fld a0800_event; fld a0800_chan; fin). Qed.
Lemma rd_can : reads r_can (fun a => a) (fun c => [Bin 4 (can_id c); Bin 8 (can_data c)]) no no.
Proof. parts ltac:(unfold r_can; fld_by can_id (rd_bin env N 4 4 eq_refl); fld_by can_data (rd_bin env N 8 8 eq_refl); fin). Qed.
Lemma rd_item : reads (r_0802_item env) (fun a => a)
  (fun i => [num 4 (i0802_media i); num 1 (i0802_type i); num 1 (i0802_chan i); num 1 (i0802_event i)] ++ bare_reading (i0802_loc i)) no no.
Proof.
  eapply (ex_reads' env N) with (P := fun _ => True); [|exact (fun _ => Logic.I)|].
  - unfold r_0802_item. fld i0802_media. fld i0802_type. fld i0802_chan. fld i0802_event. apply ex_assoc.
    fld_by i0802_loc rd_bare. fin.
  - done.
Qed.
Lemma rd_labelled : reads (r_labelled env) (fun a => a) labelled_reading no no.
Proof. parts ltac:(unfold r_labelled; fld lb_id; apply ex_assoc; fld_by lb_text (rd_ctext1 env N); fin). Qed.
Lemma rd_contact : reads (r_contact env) (fun a => a) (fun c => [num 1 (ct_flag c); CText 1 (ct_number c); CText 1 (ct_name c)]) no no.
Proof.
  parts ltac:(unfold r_contact; fld ct_flag; apply ex_assoc; fld_by ct_number (rd_ctext1 env N); apply ex_assoc; fld_by ct_name (rd_ctext1 env N); fin).
Qed.
Lemma rd_limits : reads (r_limits env) (fun a => a) (fun l => [When (lm_start l); When (lm_end l); num 2 (lm_speed l); num 1 (lm_dur l)]) no no.
Proof. parts ltac:(unfold r_limits; fld lm_start; fld lm_end; fld lm_speed; fld lm_dur; fin). Qed.
Lemma rd_limits_if attr : reads (r_limits_if env (at_timed attr)) (fun a => a) (limits_reading attr) no no.
Proof.
  rewrite at_timed_bit. unfold r_limits_if, limits_reading. destruct (Z.testbit attr 0); [exact rd_limits|].
  intros d Hd. split.
  - intros a r E. injection E as <- <-. split; [exact Logic.I|]. apply takes_one. exists []. split; auto. constructor. auto.
  - intros a r _ T. apply takes_one in T as (b & -> & H). inversion H; subst. exists limits_zero. auto.
Qed.
Lemma at_south_bit a : at_south a = Z.testbit a 6. Proof. apply getb_testbit. lia. Qed.
Lemma at_west_bit a : at_west a = Z.testbit a 7. Proof. apply getb_testbit. lia. Qed.
Ltac geo := eapply ex_lift; [apply get_geo_point_eq; unfold is_u32 in *; lia|]; cbv beta iota.
Lemma rd_circle : reads (r_circle env) (fun a => a) circle_reading no no.
Proof.
  parts ltac:(unfold r_circle; fld ci_id; fld ci_attr; rewrite at_south_bit, at_west_bit;
    conv ci_lat (rd_deg env N (Z.testbit a0 6)); conv ci_lng (rd_deg env N (Z.testbit a0 7)); geo;
    fld ci_radius; fld_by ci_lim rd_limits_if; fin).
Qed.
Lemma rd_rect : reads (r_rect env) (fun a => a) rect_reading no no.
Proof.
  parts ltac:(unfold r_rect; fld re_id; fld re_attr; rewrite at_south_bit, at_west_bit;
    conv re_llat (rd_deg env N (Z.testbit a0 6)); conv re_llng (rd_deg env N (Z.testbit a0 7));
    conv re_rlat (rd_deg env N (Z.testbit a0 6)); conv re_rlng (rd_deg env N (Z.testbit a0 7)); geo; geo;
    fld_by re_lim rd_limits_if; fin).
Qed.
Lemma rd_vertex attr : reads (r_vertex attr) (fun a => a) (fun v => [Deg (Z.testbit attr 6) (vx_lat v); Deg (Z.testbit attr 7) (vx_lng v)]) no no.
Proof.
  parts ltac:(unfold r_vertex; rewrite at_south_bit, at_west_bit;
    conv vx_lat (rd_deg env N (Z.testbit attr 6)); conv vx_lng (rd_deg env N (Z.testbit attr 7)); geo; fin).
Qed.
Lemma rd_search : reads (r_8802 env) (fun a => a) search_reading no no.
Proof. parts ltac:(unfold r_8802; fld a8802_type; fld a8802_chan; fld a8802_event; fld a8802_start; fld a8802_end; fin). Qed.
Lemma rd_two16 b : reads (r_two16 b) (fun a => a) (fun p => pair_reading b 2 (fst p) (snd p)) no no.
Proof.
  unfold r_two16. destruct b.
  - intros d Hd. destruct (rd_u16 env N d Hd) as [F B']. unfold rbind. split.
    + intros a r E. destruct (r_u16 d) as [[x l]|?|] eqn:E1; try discriminate. destruct (F x l eq_refl) as [_ T].
      destruct (rd_u16 env N l (takes_ok _ _ _ _ _ T Hd)) as [F2 _]. destruct (r_u16 l) as [[y m]|?|] eqn:E2; try discriminate.
      destruct (F2 y m eq_refl) as [_ T2]. injection E as <- <-. split; [exact Logic.I|]. apply (takes_app env [num 2 x]). eauto.
    + intros [[x|] [y|]] r _ T; cbn [fst snd pair_reading] in T; try (apply takes_one in T as (? & _ & H); inversion H; contradiction).
      apply (takes_app env [num 2 x]) in T as (l & T1 & T2). destruct (B' _ _ Logic.I T1) as (x' & E & ->). rewrite E.
      destruct (rd_u16 env N l (takes_ok _ _ _ _ _ T1 Hd)) as [_ B2]. destruct (B2 _ _ Logic.I T2) as (y' & E2 & ->). rewrite E2. eexists. split; reflexivity.
  - intros d Hd. split.
    + intros a r E. injection E as <- <-. split; [exact Logic.I|]. constructor.
    + intros [[x|] [y|]] r _ T; cbn [fst snd pair_reading] in T; try (apply takes_one in T as (? & _ & H); inversion H; contradiction).
      apply takes_nil in T as ->. eexists. split; reflexivity.
Qed.
Lemma rd_speed b : reads (r_speed b) (fun a => a) (fun p => pair_reading b 1 (fst p) (snd p)) no no.
Proof.
  unfold r_speed. destruct b.
  - intros d Hd. destruct (rd_u16 env N d Hd) as [F B']. unfold rbind. split.
    + intros a r E. destruct (r_u16 d) as [[x l]|?|] eqn:E1; try discriminate. destruct (F x l eq_refl) as [_ T].
      destruct (rd_byte env N l (takes_ok _ _ _ _ _ T Hd)) as [F2 _]. destruct (r_byte l) as [[y m]|?|] eqn:E2; try discriminate.
      destruct (F2 y m eq_refl) as [_ T2]. injection E as <- <-. split; [exact Logic.I|]. apply (takes_app env [num 2 x]). eauto.
    + intros [[x|] [y|]] r _ T; cbn [fst snd pair_reading] in T; try (apply takes_one in T as (? & _ & H); inversion H; contradiction).
      apply (takes_app env [num 2 x]) in T as (l & T1 & T2). destruct (B' _ _ Logic.I T1) as (x' & E & ->). rewrite E.
      destruct (rd_byte env N l (takes_ok _ _ _ _ _ T1 Hd)) as [_ B2]. destruct (B2 _ _ Logic.I T2) as (y' & E2 & ->). rewrite E2. eexists. split; reflexivity.
  - intros d Hd. split.
    + intros a r E. injection E as <- <-. split; [exact Logic.I|]. constructor.
    + intros [[x|] [y|]] r _ T; cbn [fst snd pair_reading] in T; try (apply takes_one in T as (? & _ & H); inversion H; contradiction).
      apply takes_nil in T as ->. eexists. split; reflexivity.
Qed.
(** a coordinate read before its sign is known *)
Definition mag (c : decimal) : Z := Z.abs (dcoef c).
Definition signed (neg : bool) (c : decimal) : Prop := c = Dec (if neg then - mag c else mag c) (-6).
Lemma deg_iff neg c b d : bytes_ok b -> (signed neg c /\ holds env (num 4 (mag c)) b d <-> holds env (Deg neg c) b d).
Proof.
  intros Hb. split.
  - intros (H1 & H2). apply holds_num in H2 as (H2 & _ & H3). rewrite H1, <- H3. constructor; auto.
  - intros H. inversion H; subst. pose proof (value_bound b ltac:(assumption)) as V. unfold signed, mag. cbn [dcoef].
    assert (A : Z.abs (if neg then - value b else value b) = value b) by (destruct neg; lia). rewrite A. split; auto. apply holds_num. auto.
Qed.
Lemma ex_point : exact r_point (fun p => signed (Z.testbit (pt_attr p) 2) (pt_lat p) /\ signed (Z.testbit (pt_attr p) 3) (pt_lng p))
  (fun p => [num 4 (pt_id p); num 4 (pt_sec p); num 4 (mag (pt_lat p)); num 4 (mag (pt_lng p)); num 1 (pt_width p); num 1 (pt_attr p)] ++
     pair_reading (Z.testbit (pt_attr p) 0) 2 (pt_long p) (pt_short p) ++ pair_reading (Z.testbit (pt_attr p) 1) 1 (pt_speed p) (pt_over p)).
Proof.
  eapply ex_conv.
  - unfold r_point. fld pt_id. fld pt_sec. fld (fun p => mag (pt_lat p)). fld (fun p => mag (pt_lng p)). fld pt_width. fld pt_attr.
    rewrite !getb_testbit by lia. geo.
    conv (fun p => (pt_long p, pt_short p)) (rd_two16 (Z.testbit a4 0)). destruct a5 as [l s]. conv (fun p => (pt_speed p, pt_over p)) (rd_speed (Z.testbit a4 1)). destruct a5 as [v o].
    apply ex_ret. intros c. split; [destruct c|intros ->]; cbn [EntPlat.pt_id EntPlat.pt_sec EntPlat.pt_lat EntPlat.pt_lng EntPlat.pt_width EntPlat.pt_attr EntPlat.pt_long EntPlat.pt_short EntPlat.pt_speed EntPlat.pt_over].
    + intros (E1 & E2 & E3 & E4 & E5 & E6 & E7 & E8 & S1 & S2). injection E1 as -> ->. injection E2 as -> ->.
      unfold signed in S1, S2. rewrite E3, E6 in S1. rewrite E3, E5 in S2. congruence.
    + unfold signed, mag, is_u32 in *. cbn [dcoef].
      assert (A1 : Z.abs (if Z.testbit a4 2 then - a1 else a1) = a1) by (destruct (Z.testbit a4 2); lia).
      assert (A2 : Z.abs (if Z.testbit a4 3 then - a2 else a2) = a2) by (destruct (Z.testbit a4 3); lia).
      rewrite A1, A2. repeat split.
  - intros [] _. cbn -[Z.testbit pair_reading]. rewrite app_nil_r. reflexivity.
Qed.
Lemma rd_point : reads r_point (fun a => a) point_reading no no.
Proof.
  eapply (ex_reads' env N) with (P := fun _ => True); [|exact (fun _ => Logic.I)|intros; reflexivity].
  intros d p r Hd. rewrite (ex_point d p r Hd). unfold point_reading. cbn [app].
  destruct Hd as [Hd _]. split.
  - intros ((S1 & S2) & T). split; auto.
    repeat (apply takes_cons in T as (? & ? & -> & ? & T)). 
    repeat (apply bytes_ok_app in Hd as [? Hd]).
    repeat (apply takes_cons; eexists; eexists; split; [reflexivity|split; [try eassumption; eapply deg_iff; eauto|]]). exact T.
  - intros (_ & T).
    repeat (apply takes_cons in T as (? & ? & -> & ? & T)). 
    repeat (apply bytes_ok_app in Hd as [? Hd]).
    match goal with H1 : holds env (Deg _ (pt_lat p)) _ _, H2 : holds env (Deg _ (pt_lng p)) _ _ |- _ =>
      apply deg_iff in H1 as [? H1]; [|assumption]; apply deg_iff in H2 as [? H2]; [|assumption] end.
    split; auto. repeat (apply takes_cons; eexists; eexists; split; [reflexivity|split; [eassumption|]]). exact T.
Qed.
End Types.
