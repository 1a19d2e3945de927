(** Exactness of the decoders: the bodies. *)
From Verif Require Import Base LibBase Bits LibBits Bcd LibBcd GoTime LibCalendar LibTime Decimal Env SpecGeo LibDec
  EntTerm EntPlat Registry SpecEntity SpecRange SpecBody LibEntity LibSafe ProofRound ProofRound2 ProofRound3 ProofSafe ProofBody3 SpecWire ProofWire ProofWire2 SpecRead ProofRead ProofRead2 ProofRead3.

Ltac prim := first [apply rd_byte|apply rd_u16|apply rd_u32|apply rd_time|apply rd_date|apply rd_clock|apply rd_zip|apply rd_all|apply rd_text|apply rd_otext|
  apply rd_param|apply rd_bare|apply rd_sub|apply rd_head|apply rd_search].
Ltac noc := intros; exact Logic.I.
Ltac fld P := eapply (ex_bind' _ _ P); [prim|noc|cbv beta; intros ? ?].
Ltac fld_by P L := eapply (ex_bind' _ _ P); [apply L|noc|cbv beta; intros ? ?].
Ltac conv P L := eapply (ex_bind _ _ P); [apply L|noc|cbv beta; intros ? ?].
Ltac lst P L := eapply (ex_bind' _ _ P); [eapply rd_list_z; [unfold is_byte, is_u16 in *; lia|apply L]|cbv beta; intros; tauto|cbv beta; intros ? ?].
Ltac fin := apply ex_ret; intros []; cbn; intuition congruence.

Section Bodies.
Context (env : Env).

Definition read_as (e : entity) (d : bytes) (n : Z) : Prop :=
  least e <= zlen d /\ exists rest, takes env (reading e) d rest /\ n = tally e d rest.

Lemma whole {A} (E : A -> entity) (q : bytes -> R A) (t : bytes -> bool) k err :
  (forall d, t d = false <-> k <= zlen d) ->
  (forall N d, length d = N -> exact env N (q d) (fun _ => True) (fun c => reading (E c))) ->
  (forall c, least (E c) = k \/ least (E c) = 0 /\ k <= minlen (reading (E c))) ->
  (forall c d r, tally (E c) d r = zlen d - zlen r) ->
  forall d c n, bytes_ok d -> ((if t d then Err err else run_count (q d) d) = Ok (c, n) <-> read_as (E c) d n).
Proof.
  intros Ht Hq Hm Hn d c n Hd. unfold read_as, run_count.
  specialize (Hq (length d) d eq_refl d c). assert (Hok : ok (length d) d) by (split; auto).
  split.
  - destruct (t d) eqn:T; [discriminate|]. apply Ht in T. destruct (q d d) as [[a r]|?|] eqn:Eq; try discriminate.
    intros H. injection H as -> <-. assert (Eq0 : Ok (c, r) = Ok (c, r)) by reflexivity. apply (proj1 (Hq r Hok)) in Eq0 as (_ & Tk). split; [destruct (Hm c) as [->|(-> & _)]; [auto|apply zlen_nonneg]|]. exists r. split; auto.
  - intros (L & r & Tk & ->). assert (T : t d = false).
    { apply Ht. destruct (Hm c) as [Hc|(_ & Hc)]; [lia|]. pose proof (minlen_ok _ _ _ _ Tk). pose proof (zlen_nonneg r). lia. }
    rewrite T. assert (Eq : q d d = Ok (c, r)) by (apply Hq; auto). rewrite Eq, Hn. reflexivity.
Qed.
Lemma ltb_spec k (d : bytes) : (zlen d <? k) = false <-> k <= zlen d. Proof. lia. Qed.
Lemma leb_spec3 (d : bytes) : (zlen d <=? 3) = false <-> 4 <= zlen d. Proof. lia. Qed.
Lemma eqb_spec0 (d : bytes) : (zlen d =? 0) = false <-> 1 <= zlen d. Proof. pose proof (zlen_nonneg d). lia. Qed.

Ltac minl := intros c; first
 [left; reflexivity
 |right; split; [reflexivity|];
  cbn [reading]; unfold many, loc_reading, fix_reading, bare_reading, media_reading, search_reading, num;
  rewrite ?minlen_app;
  repeat match goal with |- context [minlen (?f :: ?l)] => change (minlen (f :: l)) with (fmin f + minlen l) end; cbn -[Z.add minlen];
  repeat match goal with |- context [minlen ?l] => let x := fresh "x" in pose proof (minlen_nonneg l); set (x := minlen l) in *; clearbody x end; lia].
Ltac start E D := unfold D; eapply (whole E);
  [solve [intros; first [apply ltb_spec|apply leb_spec3|apply eqb_spec0]]|intros N d HN; cbv beta; eapply ex_conv|minl|intros; reflexivity].
Ltac final := intros [] _; cbn -[Z.testbit limits_reading concat map zlen]; unfold many; rewrite ?app_nil_r; reflexivity.
Notation body E D := (forall d c n, bytes_ok d -> (D d = Ok (c, n) <-> read_as (E c) d n)).

Lemma b_0001 : body E0001 dec_0001.
Proof. start E0001 dec_0001; [fld a0001_serial; fld a0001_msgid; fld a0001_result; fin|final]. Qed.
Lemma b_0100 : body E0100 (dec_0100 env).
Proof.
  start E0100 dec_0100; [fld a0100_province; fld a0100_city; conv a0100_manu (rd_cut env N 5 5 eq_refl); conv a0100_model (rd_cut env N 20 20 eq_refl);
    conv a0100_term (rd_cut env N 7 7 eq_refl); fld a0100_color; fld a0100_license; fin|final].
Qed.
Lemma b_0102 : body E0102 (dec_0102 env).
Proof. start E0102 dec_0102; [fld a0102_key; fin|final]. Qed.
Lemma b_0104 : body E0104 dec_0104.
Proof. start E0104 dec_0104; [fld a0104_serial; fld (fun x => zlen (a0104_params x)); lst a0104_params (rd_param env N); fin|final]. Qed.
Lemma b_0107 : body E0107 dec_0107.
Proof.
  start E0107 dec_0107; [fld a0107_type; conv a0107_manu (rd_cut env N 5 5 eq_refl); conv a0107_model (rd_cut env N 20 20 eq_refl);
    conv a0107_term (rd_cut env N 7 7 eq_refl); conv a0107_sim (rd_nib env N); apply ex_assoc; conv a0107_hw (rd_ccut env N);
    apply ex_assoc; conv a0107_sw (rd_ccut env N); fld a0107_gnss; fld a0107_comm; fin|final].
Qed.
Lemma b_0302 : body E0302 dec_0302.
Proof. start E0302 dec_0302; [fld a0302_serial; fld a0302_answer; fin|final]. Qed.
Lemma b_0700 : body E0700 dec_0700.
Proof. start E0700 dec_0700; [fld a0700_serial; fld a0700_cmd; fld a0700_data; fin|final]. Qed.
Lemma b_0701 : body E0701 dec_0701.
Proof. start E0701 dec_0701; [fld a0701_size; fld a0701_content; fin|final]. Qed.
Lemma b_0702 : body E0702 (dec_0702 env).
Proof.
  start E0702 dec_0702; [fld a0702_state; fld a0702_time; fld a0702_ic; apply ex_assoc; fld_by a0702_name (rd_ctext1 env N);
    fld_by a0702_number (rd_ftext env N 20 20 eq_refl); apply ex_assoc; fld_by a0702_company (rd_ctext1 env N); apply ex_assoc; fld a0702_expiry; fin|final].
Qed.
Lemma b_0704 : body E0704 (dec_0704 env).
Proof.
  start E0704 dec_0704; [fld (fun x => zlen (a0704_items x)); fld a0704_type; lst a0704_items (rd_sub env N); fin|].
  intros [] _. cbn -[zlen]. rewrite app_nil_r. f_equal. f_equal. induction a0704_items; cbn; congruence.
Qed.
Lemma b_0705 : body E0705 dec_0705.
Proof.
  start E0705 dec_0705; [fld (fun x => zlen (a0705_items x)); apply ex_assoc; fld a0705_time; lst a0705_items (rd_can env N); fin|final].
Qed.
Lemma b_0800 : body E0800 dec_0800.
Proof.
  start E0800 dec_0800; [eapply (ex_ext _ _ _ (rbind r_0800 rret)); [intros l; unfold rbind; destruct (r_0800 l) as [[]| |]; reflexivity|]; fld (fun x : t0800 => x); apply ex_ret; intros c; tauto|final].
Qed.
Lemma b_0802 : body E0802 (dec_0802 env).
Proof. start E0802 dec_0802; [fld a0802_serial; fld (fun x => zlen (a0802_items x)); lst a0802_items (rd_item env N); fin|final]. Qed.
Lemma b_0805 : body E0805 dec_0805.
Proof. start E0805 dec_0805; [fld a0805_serial; fld a0805_result; fld (fun x => zlen (a0805_ids x)); lst a0805_ids (rd_u32 env N); fin|final]. Qed.
Lemma b_0901 : body E0901 (dec_0901 env).
Proof.
  start E0901 dec_0901; [|]. 
  eapply (ex_ext _ _ _ (rbind (r_zip env) (fun d => rret (T0901 d)))); [intros l; unfold r_zip, unzip, rbind; destruct (r_u32 l) as [[]| |]; auto; destruct (r_bytes _ _) as [[]| |]; reflexivity|].
  fld a0901_data; fin. final.
Qed.
Lemma b_8001 : body E8001 dec_8001.
Proof. start E8001 dec_8001; [fld a8001_serial; fld a8001_msgid; fld a8001_result; fin|final]. Qed.
Lemma b_8003 : body E8003 dec_8003.
Proof. start E8003 dec_8003; [fld a8003_serial; fld (fun x => zlen (a8003_ids x)); lst a8003_ids (rd_u16 env N); fin|final]. Qed.
Lemma b_8100 : body E8100 (dec_8100 env).
Proof. start E8100 dec_8100; [fld a8100_serial; fld a8100_result; fld a8100_key; fin|final]. Qed.
Lemma b_8103 : body E8103 dec_8103.
Proof. start E8103 dec_8103; [fld (fun x => zlen (a8103_params x)); lst a8103_params (rd_param env N); fin|final]. Qed.
Lemma b_8607 : body E8607 dec_8607.
Proof. start E8607 dec_8607; [fld (fun x => zlen (ti_ids x)); lst ti_ids (rd_u32 env N); fin|final]. Qed.
Lemma b_8108 : body E8108 (dec_8108 env).
Proof.
  start E8108 dec_8108; [fld a8108_type; conv a8108_manu (rd_cut env N 5 5 eq_refl); apply ex_assoc; fld_by a8108_ver (rd_ctext1 env N); fld a8108_size; fld a8108_data; fin|final].
Qed.
Lemma b_8202 : body E8202 dec_8202.
Proof. start E8202 dec_8202; [fld a8202_a; fld a8202_b; fin|final]. Qed.
Lemma b_8203 : body E8203 dec_8202.
Proof. start E8203 dec_8202; [fld a8202_a; fld a8202_b; fin|final]. Qed.
Lemma b_8301 : body E8301 (dec_8301 env).
Proof. start E8301 dec_8301; [fld a8301_type; fld (fun x => zlen (a8301_events x)); lst a8301_events (rd_labelled env N); fin|final]. Qed.
Lemma b_8302 : body E8302 (dec_8302 env).
Proof.
  start E8302 dec_8302; [fld a8302_flag; apply ex_assoc; fld_by a8302_q (rd_ctext1 env N); eapply (ex_bind' _ _ a8302_answers);
   [eapply rd_until; [apply rd_labelled| |lia]|noc|cbv beta; intros ? ?; fin]|final].
  intros x l r T. apply minlen_ok in T. unfold labelled_reading in T. unfold zlen in T. cbn [minlen fold_right num fmin] in T. lia.
Qed.
Lemma b_8303 : body E8303 (dec_8303 env).
Proof. start E8303 dec_8303; [fld a8303_type; fld (fun x => zlen (a8303_items x)); lst a8303_items (rd_ctext2 env N); fin|final]. Qed.
Lemma b_8304 : body E8304 (dec_8304 env).
Proof. start E8304 dec_8304; [fld a8304_type; apply ex_assoc; fld_by a8304_text (rd_ctext2 env N); fin|final]. Qed.
Lemma b_8400 : body E8400 (dec_8400 env).
Proof. start E8400 dec_8400; [fld a8400_flag; fld a8400_number; fin|final]. Qed.
Lemma b_8401 : body E8401 (dec_8401 env).
Proof. start E8401 dec_8401; [fld a8401_type; fld (fun x => zlen (a8401_contacts x)); lst a8401_contacts (rd_contact env N); fin|final]. Qed.
Lemma b_8600 : body E8600 (dec_8600 env).
Proof. start E8600 dec_8600; [fld a8600_action; fld (fun x => zlen (a8600_items x)); lst a8600_items (rd_circle env N); fin|final]. Qed.
Lemma b_8602 : body E8602 (dec_8602 env).
Proof. start E8602 dec_8602; [fld a8602_action; fld (fun x => zlen (a8602_items x)); lst a8602_items (rd_rect env N); fin|final]. Qed.
Lemma b_8604 : body E8604 (dec_8604 env).
Proof.
  start E8604 dec_8604; [fld a8604_id; fld a8604_attr; fld_by a8604_lim (rd_limits_if env N); fld (fun x => zlen (a8604_vs x)); lst a8604_vs (rd_vertex env N); fin|final].
Qed.
Lemma b_8606 : body E8606 (dec_8606 env).
Proof.
  start E8606 dec_8606; [fld a8606_id; fld a8606_attr; fld a8606_start; fld a8606_end; fld (fun x => zlen (a8606_points x)); lst a8606_points (rd_point env N); fin|final].
Qed.
Lemma b_8801 : body E8801 dec_8801.
Proof.
  start E8801 dec_8801; [fld a8801_chan; fld a8801_cmd; fld a8801_dur; fld a8801_save; fld a8801_res; fld a8801_qual; fld a8801_light; fld a8801_contr; fld a8801_sat; fld a8801_chroma; fin|final].
Qed.
Lemma b_8802 : body E8802 (dec_8802 env).
Proof.
  start E8802 dec_8802; [eapply (ex_ext _ _ _ (rbind (r_8802 env) rret)); [intros l; unfold rbind; destruct (r_8802 env l) as [[]| |]; reflexivity|]; fld (fun x : t8802 => x); apply ex_ret; intros c; tauto|final].
Qed.
Lemma b_8803 : body E8803 (dec_8803 env).
Proof. start E8803 dec_8803; [fld a8803_q; fld a8803_remove; fin|final]. Qed.
Lemma b_8804 : body E8804 dec_8804.
Proof. start E8804 dec_8804; [fld a8804_cmd; fld a8804_dur; fld a8804_save; fld a8804_rate; fin|final]. Qed.
Lemma b_8805 : body E8805 dec_8805.
Proof. start E8805 dec_8805; [fld a8805_media; fld a8805_remove; fin|final]. Qed.

(** decoders that do not count through the reader *)
Lemma other {A} (E : A -> entity) (q : R A) (D : bytes -> res (A * Z)) :
  (forall d c n, D d = Ok (c, n) <-> exists r, q d = Ok (c, r) /\ n = tally (E c) d r) ->
  (forall N, exact env N q (fun _ => True) (fun c => reading (E c))) ->
  (forall c, least (E c) = 0) -> body E D.
Proof.
  intros HD Hq Hm d c n Hd. rewrite HD. unfold read_as. rewrite Hm. assert (Hok : ok (length d) d) by (split; auto). split.
  - intros (r & Eq & ->). apply (Hq (length d) d c r Hok) in Eq as (_ & T). split; [apply zlen_nonneg|eauto].
  - intros (_ & r & T & ->). exists r. split; auto. apply (Hq (length d) d c r Hok). auto.
Qed.
Ltac bytewise := unfold dec_0108, dec_0301, dec_0303, dec_8500, dec_data; intros d c n; split;
  [intros H; repeat match type of H with context [match ?d with [] => _ | _ => _ end] => destruct d as [|? ?]; try discriminate H end;
   injection H as <- <-; eexists; (split; [reflexivity|cbn [tally]; rewrite ?zlen_cons; change (zlen (@nil Z)) with 0; lia])
  |intros (r & H & ->); unfold rbind, r_byte, r_all, rret in H;
   repeat match type of H with context [match ?d with [] => _ | _ => _ end] => destruct d as [|? ?]; try discriminate H end;
   injection H as <- <-; cbn [tally]; rewrite ?zlen_cons; try change (zlen (@nil Z)) with 0; f_equal; f_equal; lia].
Ltac oth E q := eapply (other E q); [first [progress bytewise|idtac]|intros N; eapply ex_conv|intros; reflexivity].
Lemma b_0108 : body E0108 dec_0108.
Proof. oth E0108 (rd a <- r_byte ; rd b <- r_byte ; rret (T0108 a b)); [fld a0108_type; fld a0108_result; fin|final]. Qed.
Lemma b_0301 : body E0301 dec_0301.
Proof. oth E0301 (rd a <- r_byte ; rret (T0301 a)); [fld a0301_event; fin|final]. Qed.
Lemma b_0303 : body E0303 dec_0303.
Proof. oth E0303 (rd a <- r_byte ; rd b <- r_byte ; rret (T0303 a b)); [fld a0303_type; fld a0303_flag; fin|final]. Qed.
Lemma b_8500 : body E8500 dec_8500.
Proof. oth E8500 (rd a <- r_byte ; rret (T8500 a)); [fld a8500_flag; fin|final]. Qed.
Lemma b_0900 : body E0900 dec_data.
Proof. oth E0900 (rd a <- r_byte ; rd b <- r_all ; rret (TData a b)); [fld td_type; fld td_data; fin|final]. Qed.
Lemma b_8700 : body E8700 dec_data.
Proof. oth E8700 (rd a <- r_byte ; rd b <- r_all ; rret (TData a b)); [fld td_type; fld td_data; fin|final]. Qed.
Lemma b_8701 : body E8701 dec_data.
Proof. oth E8701 (rd a <- r_byte ; rd b <- r_all ; rret (TData a b)); [fld td_type; fld td_data; fin|final]. Qed.
Lemma b_8900 : body E8900 dec_data.
Proof. oth E8900 (rd a <- r_byte ; rd b <- r_all ; rret (TData a b)); [fld td_type; fld td_data; fin|final]. Qed.
Definition r_text : R ttext := rd f <- r_byte ; rd s <- r_str_opt env ; rret (TText f s).
Lemma text_form d c n : dec_text env d = Ok (c, n) <-> exists r, r_text d = Ok (c, r) /\ n = zlen d - zlen r - 1.
Proof.
  unfold dec_text, r_text, rbind, r_byte. destruct d as [|f d]; [split; [discriminate|intros (r & H & _); discriminate]|].
  destruct (r_str_opt env d) as [[s r0]|?|]; [|split; [discriminate|intros (r & H & _); discriminate]|split; [discriminate|intros (r & H & _); discriminate]].
  unfold rret. split; [intros H; injection H as <- <-; eexists; split; reflexivity|intros (r & H & ->); injection H as <- <-; reflexivity].
Qed.
Lemma b_8105 : body E8105 (dec_text env).
Proof. oth E8105 r_text; [apply text_form|unfold r_text; fld tt_flag; fld tt_text; fin|final]. Qed.
Lemma b_8300 : body E8300 (dec_text env).
Proof. oth E8300 r_text; [apply text_form|unfold r_text; fld tt_flag; fld tt_text; fin|final]. Qed.
Definition r_ids : R tids := rd n <- r_byte ; rd ids <- r_list (Z.to_nat n) r_u32 ; rret (TIds ids).
Lemma ids_form d c n : dec_ids d = Ok (c, n) <-> exists r, r_ids d = Ok (c, r) /\ n = zlen d - zlen r - 1.
Proof.
  unfold dec_ids, r_ids, rbind, r_byte. destruct d as [|f d]; [split; [discriminate|intros (r & H & _); discriminate]|].
  destruct (r_list _ _ d) as [[s r0]|?|]; [|split; [discriminate|intros (r & H & _); discriminate]|split; [discriminate|intros (r & H & _); discriminate]].
  unfold rret. split; [intros H; injection H as <- <-; eexists; split; reflexivity|intros (r & H & ->); injection H as <- <-; reflexivity].
Qed.
Lemma b_8106 : body E8106 dec_ids.
Proof. oth E8106 r_ids; [apply ids_form|unfold r_ids; fld (fun x => zlen (ti_ids x)); lst ti_ids (rd_u32 env N); fin|final]. Qed.
Lemma b_8601 : body E8601 dec_ids.
Proof. oth E8601 r_ids; [apply ids_form|unfold r_ids; fld (fun x => zlen (ti_ids x)); lst ti_ids (rd_u32 env N); fin|final]. Qed.
Lemma b_8603 : body E8603 dec_ids.
Proof. oth E8603 r_ids; [apply ids_form|unfold r_ids; fld (fun x => zlen (ti_ids x)); lst ti_ids (rd_u32 env N); fin|final]. Qed.
Lemma b_8605 : body E8605 dec_ids.
Proof. oth E8605 r_ids; [apply ids_form|unfold r_ids; fld (fun x => zlen (ti_ids x)); lst ti_ids (rd_u32 env N); fin|final]. Qed.

Lemma b_0200 : body E0200 (dec_0200 env).
Proof.
  intros d c n Hd. rewrite (loc_iff env (length d)) by (split; auto). unfold read_as. cbn [least tally reading]. split.
  - intros (T & ->). split; [apply zlen_nonneg|eauto].
  - intros (_ & r & T & ->). split; auto. assert (r = []) as ->; auto.
    unfold loc_reading in T. apply takes_app in T as (m & _ & T). apply takes_one in T as (b & -> & H). inversion H. reflexivity.
Qed.
Lemma loc2 d c n : bytes_ok d -> (dec_0201 env d = Ok (c, n) <-> exists r, takes env (num 2 (a0201_serial c) :: loc_reading (a0201_loc c)) d r /\ n = 30).
Proof.
  intros Hd. unfold dec_0201. assert (Hok : ok (length d) d) by (split; auto). destruct (rd_u16 env (length d) d Hok) as [F B]. split.
  - destruct (Z.leb_spec (zlen d) 3); [discriminate|]. destruct (r_u16 d) as [[s l]|?|] eqn:E1; try discriminate. destruct (F s l eq_refl) as [_ T].
    destruct (dec_0200 env l) as [[loc sz]|?|] eqn:E2; try discriminate. cbn [bind]. intros H0. injection H0 as <- <-.
    apply (loc_iff env (length d)) in E2 as (T2 & ->); [|eapply takes_ok; eauto]. exists []. split.
    + apply (takes_app env [num 2 _]). eauto.
    + apply takes_one in T as (b & -> & Hb). apply holds_num in Hb as (Hb & _ & _). assert (zlen b = 2) by (unfold zlen; lia). rewrite zlen_app. lia.
  - intros (r & T & ->). pose proof (minlen_ok _ _ _ _ T) as M. apply (takes_app env [num 2 _]) in T as (l & T1 & T2).
    destruct (B _ _ Logic.I T1) as (s & E & Es). rewrite E.
    assert (r = []) as ->. { unfold loc_reading in T2. apply takes_app in T2 as (m & _ & T). apply takes_one in T as (b & -> & H). inversion H. reflexivity. }
    assert (L : zlen d <=? 3 = false). { unfold loc_reading, fix_reading in M. cbn -[Z.add] in M. change (zlen (@nil Z)) with 0 in M. lia. }
    rewrite L. assert (E2 : dec_0200 env l = Ok (a0201_loc c, 28)) by (apply (loc_iff env (length d)); [eapply takes_ok; eauto|auto]).
    rewrite E2. cbn [bind]. rewrite Es. apply takes_one in T1 as (b & -> & Hb). apply holds_num in Hb as (Hb & _ & _).
    destruct c. cbn. f_equal. f_equal. assert (zlen b = 2) by (unfold zlen; lia). rewrite zlen_app. lia.
Qed.
Lemma b_0201 : body E0201 (dec_0201 env).
Proof. intros d c n Hd. rewrite loc2 by auto. unfold read_as. cbn [least tally reading]. pose proof (zlen_nonneg d). tauto. Qed.
Lemma b_0500 : body E0500 (dec_0201 env).
Proof. intros d c n Hd. rewrite loc2 by auto. unfold read_as. cbn [least tally reading]. pose proof (zlen_nonneg d). tauto. Qed.

Lemma be_value_eq l : be_value l = value l.
Proof.
  unfold be_value. assert (G : forall l a, fold_left (fun acc b => acc * 256 + b) l a = a * 256 ^ zlen l + value l).
  { induction l0 as [|x l0 IH]; intros a; cbn [fold_left value]; [change (zlen (@nil Z)) with 0; lia|].
    rewrite IH, zlen_cons, Z.pow_add_r by (try apply zlen_nonneg; lia). ring. }
  rewrite G. lia.
Qed.
Lemma rd_big N : reads env N (r_bytes 128) be_value (fun n => [num 128 n]) no no.
Proof.
  intros d [Hd _]. split.
  - intros a r E. apply r_bytes_inv in E as (-> & L). split; [exact Logic.I|]. apply takes_one. exists a. split; auto. apply holds_num.
    apply bytes_ok_app in Hd as [Hd _]. rewrite be_value_eq. unfold zlen in L. repeat split; auto. lia.
  - intros a r _ T. apply takes_one in T as (b & -> & H). apply holds_num in H as (H1 & H2 & <-). exists b. split; [|apply be_value_eq].
    apply r_bytes_app. unfold zlen. rewrite H1. reflexivity.
Qed.
Definition key_pair (k : t0a00) : option (Z * Z) := match a0a00_key k with Some (e, Some n) => Some (e, n) | _ => None end.
Definition r_key : R t0a00 := rd e <- r_u32 ; rd n <- r_bytes 128 ; rret (T0A00 (Some (e, Some (be_value n)))).
Lemma ex_key N : exact env N r_key (fun _ => True) key_reading.
Proof.
  intros d c r Hd. unfold r_key, rbind. destruct (rd_u32 env N d Hd) as [F B]. split.
  - destruct (r_u32 d) as [[e l]|?|] eqn:E1; try discriminate. destruct (F e l eq_refl) as [_ T].
    destruct (rd_big N l (takes_ok _ _ _ _ _ T Hd)) as [F2 _].
    destruct (r_bytes 128 l) as [[n m]|?|] eqn:E2; try discriminate. destruct (F2 n m eq_refl) as [_ T2].
    unfold rret. intros H. injection H as <- <-. split; auto. apply (takes_app env [num 4 e]). eauto.
  - intros (_ & T). destruct c as [[[e [n|]]|]]; cbn [key_reading a0a00_key] in T; try (apply takes_one in T as (? & _ & H); inversion H; contradiction).
    apply (takes_app env [num 4 e]) in T as (l & T1 & T2). destruct (B _ _ Logic.I T1) as (e' & -> & ->).
    destruct (rd_big N l (takes_ok _ _ _ _ _ T1 Hd)) as [_ B2]. destruct (B2 _ _ Logic.I T2) as (n' & -> & ->). reflexivity.
Qed.
Lemma key_form E : (forall c d r, tally (E c) d r = zlen d - zlen r) -> forall d c n, (dec_0a00 d = Ok (c, n) <-> exists r, r_key d = Ok (c, r) /\ n = tally (E c) d r).
Proof.
  intros HE d c n. unfold dec_0a00. fold r_key. unfold run_count. split.
  - destruct (Z.ltb_spec (zlen d) 132); [discriminate|]. destruct (r_key d) as [[a l]|?|]; try discriminate. intros H0. injection H0 as -> <-. exists l. rewrite HE. auto.
  - intros (r & E0 & ->). rewrite HE. destruct (Z.ltb_spec (zlen d) 132) as [L|L]; [|rewrite E0; reflexivity]. exfalso. revert E0.
    unfold r_key, rbind, r_u32. destruct d as [|a1 [|a2 [|a3 [|a4 d]]]]; try discriminate. rewrite !zlen_cons in L. unfold r_bytes.
    destruct (Z.ltb_spec (zlen d) 128); [discriminate|lia].
Qed.
Lemma b_0A00 : body E0A00 dec_0a00.
Proof. eapply (other E0A00 r_key); [intros; apply (key_form E0A00); reflexivity|intros; apply ex_key|reflexivity]. Qed.
Lemma b_8A00 : body E8A00 dec_0a00.
Proof. eapply (other E8A00 r_key); [intros; apply (key_form E8A00); reflexivity|intros; apply ex_key|reflexivity]. Qed.
Definition r_oids : R (list Z) := rd k <- r_len ; if k =? 0 then rret [] else rd n <- r_byte ; r_list (Z.to_nat n) r_u16.
Lemma as_takes fs : forall d r, takes env (map As fs) d r <-> exists b, d = b ++ r /\ on_wire fs b.
Proof.
  induction fs as [|f fs IH]; intros d r; cbn [map].
  - rewrite takes_nil. split; [intros ->; exists []; split; [reflexivity|constructor]|intros (b & -> & H); inversion H; reflexivity].
  - rewrite takes_cons. split.
    + intros (b & m & -> & H & T). apply IH in T as (c & -> & T). inversion H; subst. exists (b ++ c). split; [apply app_assoc|constructor; auto].
    + intros (b & -> & H). inversion H; subst. match goal with |- context [(?x ++ ?y) ++ r] => exists x, (y ++ r) end. split; [symmetry; apply app_assoc|].
      split; [constructor; auto|]. apply IH. eauto.
Qed.
Lemma ids_map l : map As (SpecWire.counted_list 1 (fun i => [Num 2 i]) l) = num 1 (zlen l) :: concat (map (fun i => [num 2 i]) l).
Proof. unfold SpecWire.counted_list. cbn [map]. f_equal. induction l as [|x l IH]; cbn; [reflexivity|]. f_equal. exact IH. Qed.
Lemma ex_list N : exact env N (rd n <- r_byte ; r_list (Z.to_nat n) r_u16) (fun _ => True) (fun l => num 1 (zlen l) :: concat (map (fun i => [num 2 i]) l)).
Proof.
  eapply ex_ext with (q := rd n <- r_byte ; rd l <- r_list (Z.to_nat n) r_u16 ; rret l).
  { intros d. unfold rbind. destruct (r_byte d) as [[]| |]; auto. destruct (r_list _ _ _) as [[]| |]; reflexivity. }
  eapply ex_conv; [fld (fun l : list Z => zlen l); lst (fun l : list Z => l) (rd_u16 env N); apply ex_ret; intros c; split; [tauto|intros ->; auto]|].
  intros c _. cbn. rewrite app_nil_r. reflexivity.
Qed.
Lemma rd_oids N : reads env N r_oids (fun l => l) (fun l => [OIds l]) no no.
Proof.
  intros d Hd. pose proof (ex_list N) as X. unfold r_oids, rbind at 1 2 3, r_len. split.
  - intros a r E. split; [exact Logic.I|]. apply takes_one. destruct (Z.eqb_spec (zlen d) 0) as [Z0|Z0].
    + injection E as <- <-. apply zlen_0 in Z0 as ->. exists []. split; auto. constructor.
    + apply X in E as (_ & T); auto. rewrite <- ids_map in T. apply as_takes in T as (b & -> & T). exists b. split; auto. constructor; auto.
  - intros a r _ T. apply takes_one in T as (b & -> & H). exists a. split; auto. inversion H; subst; [reflexivity|].
    assert (E : (rd n <- r_byte ; r_list (Z.to_nat n) r_u16) (b ++ r) = Ok (a, r)).
    { apply X; auto. split; auto. rewrite <- ids_map. apply as_takes. eauto. }
    destruct (Z.eqb_spec (zlen (b ++ r)) 0) as [Z0|Z0]; [|exact E]. apply zlen_0 in Z0. rewrite Z0 in E. discriminate.
Qed.
Lemma b_8800 : body E8800 dec_8800.
Proof.
  start E8800 dec_8800.
  eapply ex_ext with (q := rd m <- r_u32 ; rd ids <- r_oids ; rret (T8800 m ids)).
  { intros l. unfold r_oids, rbind, r_len. destruct (r_u32 l) as [[m l1]| |]; auto. destruct (zlen l1 =? 0); auto.
    destruct (r_byte l1) as [[]| |]; auto. }
  fld a8800_media; fld_by a8800_ids rd_oids; fin. final.
Qed.

Lemma ex_0801 N : exact env N (rd h <- r_0800 ; rd buf <- r_bytes 28 ; rd loc <- r_0200_of env buf ; rret (T0801 h loc None))
  (fun c => a0801_packet c = None) (fun c => media_reading (a0801_head c) ++ bare_reading (a0801_loc c)).
Proof.
  eapply ex_conv; [fld a0801_head; apply ex_assoc; fld_by a0801_loc (rd_bare env N); fin|].
  intros c _. cbv beta. rewrite app_nil_r. reflexivity.
Qed.
Lemma b_0801 d c : bytes_ok d -> (dec_0801_packet env d = Ok c <-> read_as (E0801 c) d (zlen d)).
Proof.
  intros Hd. assert (Hok : ok (length d) d) by (split; auto). pose proof (ex_0801 (length d)) as X.
  unfold dec_0801_packet, dec_0801, read_as, run_count. cbn [least tally reading].
  set (q := rd h <- r_0800 ; _) in *. split.
  - destruct (Z.ltb_spec (zlen d) 36); [discriminate|]. destruct (q d) as [[e r]|?|] eqn:Eq; try discriminate.
    apply X in Eq as (_ & T); auto. cbn [bind]. pose proof (takes_suffix _ _ _ _ T) as (b & Eb).
    destruct (_ || _); [discriminate|]. intros H0. injection H0 as <-. split; [apply zlen_nonneg|]. exists [].
    cbn [a0801_head a0801_loc a0801_packet rdr_fail rdr_data]. split; [|change (zlen (@nil Z)) with 0; lia].
    rewrite app_assoc. apply takes_app. exists r. split; auto. apply (takes_app env [Must _]). exists r. split.
    + apply takes_one. exists []. split; auto. constructor. reflexivity.
    + apply takes_one. exists r. split; [symmetry; apply app_nil_r|].
      replace (skipn _ d) with r; [constructor|]. subst d. rewrite zlen_app. replace (Z.to_nat _) with (length b) by (unfold zlen; lia). rewrite skipn_app, skipn_all, Nat.sub_diag. reflexivity.
  - intros (_ & r & T & Hr). assert (r = []) as -> by (apply zlen_0; lia). clear Hr.
    destruct c as [h l [[u f]|]]; cbn [a0801_head a0801_loc a0801_packet rdr_fail rdr_data] in T; rewrite app_assoc in T; apply takes_app in T as (m & T1 & T2).
    + apply (takes_app env [Must _]) in T2 as (m' & T2 & T3). apply takes_one in T2 as (x & -> & H2). inversion H2; subst. apply takes_one in T3 as (y & Ey & H3). assert (Yu : y = u) by (inversion H3; reflexivity). clear H3. subst y. rewrite app_nil_r in Ey. subst m'. cbn [app] in T1.
      assert (Eq : q d = Ok (T0801 h l None, u)) by (apply X; auto). rewrite Eq. pose proof (minlen_ok _ _ _ _ T1) as M. pose proof (takes_suffix _ _ _ _ T1) as (b & Eb).
      pose proof (zlen_nonneg u). pose proof (zlen_nonneg b).
      assert (L : zlen d <? 36 = false). { unfold media_reading, bare_reading, fix_reading in M. cbn -[Z.add] in M. lia. } rewrite L. cbn [bind].
      assert (L2 : (zlen d - zlen u <? 0) || (zlen d <? zlen d - zlen u) = false). { subst d. rewrite zlen_app. lia. } rewrite L2. cbn [a0801_head a0801_loc].
      replace (skipn _ d) with u; [reflexivity|]. subst d. rewrite zlen_app. replace (Z.to_nat _) with (length b) by (unfold zlen; lia). rewrite skipn_app, skipn_all, Nat.sub_diag. reflexivity.
    + apply takes_one in T2 as (x & _ & H). inversion H; contradiction.
Qed.
Lemma omap_inv {A} (E : A -> entity) r e n : omap E r = Ok (e, n) -> exists x, r = Ok (x, n) /\ e = E x.
Proof. unfold omap. destruct r as [[x m]| |]; cbn [bind]; try discriminate. intros H. injection H as <- <-. eauto. Qed.
Lemma empty_as (e : entity) d n : reading e = [] -> least e = 0 -> (forall r, tally e d r = zlen d - zlen r) -> (n = 0 <-> read_as e d n).
Proof.
  intros H1 H2 H3. unfold read_as. rewrite H1, H2. split.
  - intros ->. split; [apply zlen_nonneg|]. exists d. rewrite H3. split; [constructor|lia].
  - intros (_ & r & T & ->). apply takes_nil in T as ->. rewrite H3. lia.
Qed.
Ltac step := match goal with H : (if ?t =? ?c then _ else _) = Ok _ |- _ => destruct (Z.eqb_spec t c) end.
Lemma decode_reads typ d e n : bytes_ok d -> decode env typ d = Ok (e, n) -> typ = type_number e /\ read_as e d n.
Proof.
  intros Hd H. unfold decode in H.
  step; [subst typ; apply omap_inv in H as (x & H & ->); apply b_0001 in H; auto|].
  step; [subst typ; injection H as <- <-; split; [reflexivity|]; apply empty_as; reflexivity|].
  step; [subst typ; injection H as <- <-; split; [reflexivity|]; apply empty_as; reflexivity|].
  step; [subst typ; apply omap_inv in H as (x & H & ->); apply b_0100 in H; auto|].
  step; [subst typ; apply omap_inv in H as (x & H & ->); apply b_0102 in H; auto|].
  step; [subst typ; apply omap_inv in H as (x & H & ->); apply b_0104 in H; auto|].
  step; [subst typ; apply omap_inv in H as (x & H & ->); apply b_0107 in H; auto|].
  step; [subst typ; apply omap_inv in H as (x & H & ->); apply b_0108 in H; auto|].
  step; [subst typ; apply omap_inv in H as (x & H & ->); apply b_0200 in H; auto|].
  step; [subst typ; apply omap_inv in H as (x & H & ->); apply b_0201 in H; auto|].
  step; [subst typ; apply omap_inv in H as (x & H & ->); apply b_0301 in H; auto|].
  step; [subst typ; apply omap_inv in H as (x & H & ->); apply b_0302 in H; auto|].
  step; [subst typ; apply omap_inv in H as (x & H & ->); apply b_0303 in H; auto|].
  step; [subst typ; apply omap_inv in H as (x & H & ->); apply b_0500 in H; auto|].
  step; [subst typ; apply omap_inv in H as (x & H & ->); apply b_0700 in H; auto|].
  step; [subst typ; apply omap_inv in H as (x & H & ->); apply b_0701 in H; auto|].
  step; [subst typ; apply omap_inv in H as (x & H & ->); apply b_0702 in H; auto|].
  step; [subst typ; apply omap_inv in H as (x & H & ->); apply b_0704 in H; auto|].
  step; [subst typ; apply omap_inv in H as (x & H & ->); apply b_0705 in H; auto|].
  step; [subst typ; apply omap_inv in H as (x & H & ->); apply b_0800 in H; auto|].
  step; [subst typ; destruct (dec_0801_packet env d) eqn:E0; try discriminate; cbn [bind] in H; injection H as <- <-; apply b_0801 in E0; auto|].
  step; [subst typ; apply omap_inv in H as (x & H & ->); apply b_0802 in H; auto|].
  step; [subst typ; apply omap_inv in H as (x & H & ->); apply b_0805 in H; auto|].
  step; [subst typ; apply omap_inv in H as (x & H & ->); apply b_0900 in H; auto|].
  step; [subst typ; apply omap_inv in H as (x & H & ->); apply b_0901 in H; auto|].
  step; [subst typ; apply omap_inv in H as (x & H & ->); apply b_0A00 in H; auto|].
  step; [subst typ; apply omap_inv in H as (x & H & ->); apply b_8001 in H; auto|].
  step; [subst typ; apply omap_inv in H as (x & H & ->); apply b_8003 in H; auto|].
  step; [subst typ; apply omap_inv in H as (x & H & ->); apply b_8100 in H; auto|].
  step; [subst typ; apply omap_inv in H as (x & H & ->); apply b_8103 in H; auto|].
  step; [subst typ; injection H as <- <-; split; [reflexivity|]; apply empty_as; reflexivity|].
  step; [subst typ; apply omap_inv in H as (x & H & ->); apply b_8105 in H; auto|].
  step; [subst typ; apply omap_inv in H as (x & H & ->); apply b_8106 in H; auto|].
  step; [subst typ; injection H as <- <-; split; [reflexivity|]; apply empty_as; reflexivity|].
  step; [subst typ; apply omap_inv in H as (x & H & ->); apply b_8108 in H; auto|].
  step; [subst typ; injection H as <- <-; split; [reflexivity|]; apply empty_as; reflexivity|].
  step; [subst typ; apply omap_inv in H as (x & H & ->); apply b_8202 in H; auto|].
  step; [subst typ; apply omap_inv in H as (x & H & ->); apply b_8203 in H; auto|].
  step; [subst typ; apply omap_inv in H as (x & H & ->); apply b_8300 in H; auto|].
  step; [subst typ; apply omap_inv in H as (x & H & ->); apply b_8301 in H; auto|].
  step; [subst typ; apply omap_inv in H as (x & H & ->); apply b_8302 in H; auto|].
  step; [subst typ; apply omap_inv in H as (x & H & ->); apply b_8303 in H; auto|].
  step; [subst typ; apply omap_inv in H as (x & H & ->); apply b_8304 in H; auto|].
  step; [subst typ; apply omap_inv in H as (x & H & ->); apply b_8400 in H; auto|].
  step; [subst typ; apply omap_inv in H as (x & H & ->); apply b_8401 in H; auto|].
  step; [subst typ; apply omap_inv in H as (x & H & ->); apply b_8500 in H; auto|].
  step; [subst typ; apply omap_inv in H as (x & H & ->); apply b_8600 in H; auto|].
  step; [subst typ; apply omap_inv in H as (x & H & ->); apply b_8601 in H; auto|].
  step; [subst typ; apply omap_inv in H as (x & H & ->); apply b_8602 in H; auto|].
  step; [subst typ; apply omap_inv in H as (x & H & ->); apply b_8603 in H; auto|].
  step; [subst typ; apply omap_inv in H as (x & H & ->); apply b_8604 in H; auto|].
  step; [subst typ; apply omap_inv in H as (x & H & ->); apply b_8605 in H; auto|].
  step; [subst typ; apply omap_inv in H as (x & H & ->); apply b_8606 in H; auto|].
  step; [subst typ; apply omap_inv in H as (x & H & ->); apply b_8607 in H; auto|].
  step; [subst typ; apply omap_inv in H as (x & H & ->); apply b_8700 in H; auto|].
  step; [subst typ; apply omap_inv in H as (x & H & ->); apply b_8701 in H; auto|].
  step; [subst typ; injection H as <- <-; split; [reflexivity|]; apply empty_as; reflexivity|].
  step; [subst typ; apply omap_inv in H as (x & H & ->); apply b_8800 in H; auto|].
  step; [subst typ; apply omap_inv in H as (x & H & ->); apply b_8801 in H; auto|].
  step; [subst typ; apply omap_inv in H as (x & H & ->); apply b_8802 in H; auto|].
  step; [subst typ; apply omap_inv in H as (x & H & ->); apply b_8803 in H; auto|].
  step; [subst typ; apply omap_inv in H as (x & H & ->); apply b_8804 in H; auto|].
  step; [subst typ; apply omap_inv in H as (x & H & ->); apply b_8805 in H; auto|].
  step; [subst typ; apply omap_inv in H as (x & H & ->); apply b_8900 in H; auto|].
  step; [subst typ; apply omap_inv in H as (x & H & ->); apply b_8A00 in H; auto|].
  discriminate.
Qed.
Lemma decode_back e d n : bytes_ok d -> read_as e d n -> decode env (type_number e) d = Ok (e, n).
Proof.
  intros Hd R. destruct e; cbn [type_number]; unfold decode; cbn [Z.eqb Pos.eqb];
  try (apply omap_ok); revert R; first
  [solve [apply b_0001; exact Hd]
  |solve [apply b_0100; exact Hd]
  |solve [apply b_0102; exact Hd]
  |solve [apply b_0104; exact Hd]
  |solve [apply b_0107; exact Hd]
  |solve [apply b_0108; exact Hd]
  |solve [apply b_0200; exact Hd]
  |solve [apply b_0201; exact Hd]
  |solve [apply b_0301; exact Hd]
  |solve [apply b_0302; exact Hd]
  |solve [apply b_0303; exact Hd]
  |solve [apply b_0500; exact Hd]
  |solve [apply b_0700; exact Hd]
  |solve [apply b_0701; exact Hd]
  |solve [apply b_0702; exact Hd]
  |solve [apply b_0704; exact Hd]
  |solve [apply b_0705; exact Hd]
  |solve [apply b_0800; exact Hd]
  |solve [apply b_0802; exact Hd]
  |solve [apply b_0805; exact Hd]
  |solve [apply b_0900; exact Hd]
  |solve [apply b_0901; exact Hd]
  |solve [apply b_0A00; exact Hd]
  |solve [apply b_8001; exact Hd]
  |solve [apply b_8003; exact Hd]
  |solve [apply b_8100; exact Hd]
  |solve [apply b_8103; exact Hd]
  |solve [apply b_8105; exact Hd]
  |solve [apply b_8106; exact Hd]
  |solve [apply b_8108; exact Hd]
  |solve [apply b_8202; exact Hd]
  |solve [apply b_8203; exact Hd]
  |solve [apply b_8300; exact Hd]
  |solve [apply b_8301; exact Hd]
  |solve [apply b_8302; exact Hd]
  |solve [apply b_8303; exact Hd]
  |solve [apply b_8304; exact Hd]
  |solve [apply b_8400; exact Hd]
  |solve [apply b_8401; exact Hd]
  |solve [apply b_8500; exact Hd]
  |solve [apply b_8600; exact Hd]
  |solve [apply b_8601; exact Hd]
  |solve [apply b_8602; exact Hd]
  |solve [apply b_8603; exact Hd]
  |solve [apply b_8604; exact Hd]
  |solve [apply b_8605; exact Hd]
  |solve [apply b_8606; exact Hd]
  |solve [apply b_8607; exact Hd]
  |solve [apply b_8700; exact Hd]
  |solve [apply b_8701; exact Hd]
  |solve [apply b_8800; exact Hd]
  |solve [apply b_8801; exact Hd]
  |solve [apply b_8802; exact Hd]
  |solve [apply b_8803; exact Hd]
  |solve [apply b_8804; exact Hd]
  |solve [apply b_8805; exact Hd]
  |solve [apply b_8900; exact Hd]
  |solve [apply b_8A00; exact Hd]
  |intros R; unfold dec_empty, omap; cbn [bind]; f_equal; f_equal; symmetry; eapply empty_as; [| | |exact R]; reflexivity
  |idtac].
  intros R. pose proof R as (_ & r & _ & Hn). assert (n = zlen d) as ->.
  { destruct R as (_ & r' & T & ->). cbn [tally]. unfold reading in T. rewrite app_assoc in T. apply takes_app in T as (m & _ & T).
    destruct (a0801_packet _); [|apply takes_one in T as (x & _ & H); inversion H; contradiction].
    apply (takes_app env [Must _]) in T as (m' & _ & T). apply takes_one in T as (y & Ey & H3). inversion H3; subst. change (zlen (@nil Z)) with 0. lia. }
  apply b_0801 in R; auto. rewrite R. reflexivity.
Qed.
Lemma decode_exact typ d e n : bytes_ok d ->
  (decode env typ d = Ok (e, n) <->
   typ = type_number e /\ least e <= zlen d /\ exists rest, takes env (reading e) d rest /\ n = tally e d rest).
Proof.
  intros Hd. split; [apply decode_reads; auto|]. intros (-> & R). apply decode_back; auto.
Qed.
End Bodies.
