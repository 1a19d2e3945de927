(** The tests of the repository pass. *)
From Verif Require Import Base LibBase Bcd GoTime Decimal Env EntTerm EntPlat Registry Multipart SpecGeo SpecEntity Gb SpecGb ProofGb ProofRound3 Tests SpecTests SpecMulti ProofMulti2.

Lemma runes_texts : test_texts = map text test_runes.
Proof. vm_compute. reflexivity. Qed.
Lemma runes_plain : Forall plain test_runes.
Proof. unfold test_runes. repeat (apply Forall_cons; [unfold plain; repeat (apply Forall_cons; [unfold scalar; lia|]); apply Forall_nil|]). apply Forall_nil. Qed.
Lemma texts_in env T s : table_ok T -> In s test_texts -> text_in (gb_env env T) s 60.
Proof.
  intros K I. rewrite runes_texts in I. apply in_map_iff in I. destruct I as (rs & <- & I).
  pose proof (proj1 (Forall_forall _ _) runes_plain rs I) as P.
  split; [apply gb_text; [exact K|exists rs; auto]|].
  assert (Q : Forall scalar rs). { unfold plain in P. eapply Forall_impl; [|exact P]. cbn beta. intros; tauto. }
  destruct (gb_size env T rs Q) as [-> B]. assert (L : zlen rs <= 14); [|lia].
  clear - I. revert I. generalize rs. apply Forall_forall. unfold test_runes.
  repeat (apply Forall_cons; [vm_compute; discriminate|]). apply Forall_nil.
Qed.
Lemma text_in_le env s n m : text_in env s n -> n <= m -> text_in env s m.
Proof. intros [A B] L. split; [exact A|lia]. Qed.
Lemma number_in env T : table_ok T -> text_in (gb_env env T) s_number 20.
Proof.
  intros K. split; [apply (texts_in env T s_number K); cbn [In test_texts]; auto 10|].
  change s_number with (text [0x4e; 0x53; 0x31; 0x32; 0x33; 0x34; 0x35; 0x36; 0x37; 0x38]).
  destruct (gb_size env T [0x4e; 0x53; 0x31; 0x32; 0x33; 0x34; 0x35; 0x36; 0x37; 0x38]) as [-> _]; [repeat (apply Forall_cons; [unfold scalar; lia|]); apply Forall_nil|].
  vm_compute. discriminate.
Qed.

Lemma test_key : wf_key (T0A00 (Some (65537, Some test_modulus))).
Proof. vm_compute. repeat split; discriminate. Qed.
Lemma extras_ok : Forall wf_extra test_extras.
Proof.
  unfold test_extras. cbn [map]. repeat (apply Forall_cons; [split; [cbn [extra_val_ok x_val new_extra]; unfold is_u32, is_u16, is_byte; try lia|reflexivity]|]); [|apply Forall_nil].
  split; [lia|]. right. split; [lia|]. eexists. split; [reflexivity|lia].
Qed.
Section Suite.
Variables (env : Env) (T : gbtab) (now : gotime).
Hypothesis K : table_ok T.
Hypothesis N : clock_time env now.
Hypothesis G : gzip_ok env (repeat 0 768) /\ zlen (gz_enc env (repeat 0 768)) < 4294967296.
Notation E := (gb_env env T).
Lemma now_ok : time_ok E now. Proof. destruct N as (_ & _ & B). exact B. Qed.
Lemma now_sent : time_sent E now = now. Proof. destruct N as (A & B & _). unfold time_sent. cbn [gb_env tz_off]. rewrite <- A, <- B. destruct now; reflexivity. Qed.
Lemma params_ok : wf_params (test_params E).
Proof.
  split; [|vm_compute; discriminate]. unfold test_params.
  do 4 (apply Forall_cons; [vm_compute; repeat (first [split | apply Forall_cons | apply Forall_nil | discriminate])|]). apply Forall_cons; [|apply Forall_nil].
  unfold set_string. change (zlen s_plate =? 0) with false. cbn [wf_param set_bytes pr_id pr_val].
  destruct (texts_in env T s_plate K) as [(d & Q & B & _) L]; [cbn [In test_texts]; auto 10|].
  split; [unfold is_u32; lia|]. rewrite Q in *. cbn [fst] in *. split; [exact B|lia].
Qed.
Ltac find_it := unfold test_texts; cbn [In]; repeat (first [left; reflexivity | right]).
Ltac txt := eapply text_in_le; [apply (texts_in env T _ K); find_it|lia].
Ltac num := vm_compute; first [reflexivity | discriminate | split; first [reflexivity | discriminate]].
Ltac small := let l := fresh in lazymatch goal with |- Forall ?P ?x => let y := eval vm_compute in x in change (Forall P y) end; repeat (apply Forall_cons; [num|]); apply Forall_nil.
Ltac w := lazymatch goal with
  | |- gzip_ok _ _ /\ _ => exact G
  | |- _ /\ _ => split; w
  | |- True => exact Logic.I
  | |- time_ok _ _ => exact now_ok
  | |- wf_params _ => exact params_ok
  | |- is_byte _ => num
  | |- is_u16 _ => num
  | |- is_u32 _ => num
  | |- coord_ok _ => num
  | |- sign_ok _ _ => num
  | |- _ <= _ => num
  | |- _ < _ => num
  | |- _ = _ => num
  | |- bytes_ok _ => unfold bytes_ok; small
  | |- no_nul _ => unfold no_nul; small
  | |- fixed_ok _ _ => unfold fixed_ok; w
  | |- wf_ids _ _ _ => unfold wf_ids; split; [small|num]
  | |- text_in _ s_number 20 => exact (number_in env T K)
  | |- text_in _ _ _ => txt
  | |- text_opt _ _ => right; w
  | |- text_ok _ ?s => apply (fun H => proj1 (texts_in env T s K H)); find_it
  | |- Forall _ [] => apply Forall_nil
  | |- Forall _ (_ :: _) => apply Forall_cons; [w|w]
  | |- wf_0200 _ _ => unfold wf_0200, test_place, bare; cbn [p_alarm p_status p_lat p_lng p_alt p_speed p_dir p_time p_extras]; w
  | |- wf_can _ => unfold wf_can; w
  | |- wf_0800 _ => unfold wf_0800; w
  | |- wf_0802_item _ _ => unfold wf_0802_item; cbn [i0802_loc]; w
  | |- wf_labelled _ _ => unfold wf_labelled; cbn [lb_text]; w
  | |- wf_contact _ _ => unfold wf_contact; cbn [ct_number ct_name]; w
  | |- wf_circle _ _ => unfold wf_circle, test_circle; cbn [ci_lim]; w
  | |- wf_rect _ _ => unfold wf_rect, test_rect; cbn [re_lim]; w
  | |- wf_8604 _ _ => unfold wf_8604; cbn [a8604_lim a8604_vs]; w
  | |- wf_vertex _ _ _ => unfold wf_vertex; w
  | |- wf_limits_if _ _ _ => intros _; unfold wf_limits; cbn [lm_start lm_end]; w
  | |- wf_point _ => unfold wf_point; cbn [wf_pair pt_long pt_short pt_speed pt_over]; w
  | |- wf_8802 _ _ => unfold wf_8802; cbn [a8803_q a8802_start a8802_end]; w
  | |- wf_key _ => exact test_key
  | |- Forall wf_extra test_extras => exact extras_ok
  | |- forall t, _ <> _ => intros ?; discriminate
  | |- _ => idtac
  end.
Ltac all_of := lazymatch goal with |- Forall _ [] => apply Forall_nil | |- Forall _ (_ :: _) => apply Forall_cons; [|all_of] end.
Lemma w_compared : Forall (wf E) (compared E now).
Proof.
  unfold compared.
  all_of.
  all: cbn [wf a0001_serial a0001_msgid a0001_result a0100_province a0100_city a0100_manu a0100_model a0100_term a0100_color a0100_license a0102_key a0104_serial a0104_params a0107_manu a0107_model a0107_term a0107_sim a0107_hw a0107_sw a0704_items a0705_items a0802_items ti_ids a8003_ids a8800_ids a0805_ids td_data a0700_data a0701_content a8108_data a8108_ver a8108_manu a8301_events a8302_answers a8302_q a8303_items a8304_text a8400_number a8401_contacts a8600_items a8602_items a8604_vs a8606_points tt_text a8100_key].
  all: w.
Qed.
Lemma w_not : Forall (wf E) (not_compared E now).
Proof.
  unfold not_compared. all_of.
  all: cbn [wf a0201_serial a0201_loc a0801_head a0801_loc a0801_packet rdr_data rdr_fail a0805_ids]. all: w.
Qed.
Lemma s_compared : Forall (fun e => sent E e = encoded e) (compared E now).
Proof.
  clear G. destruct N as (A & B & _). destruct now as [u v z]. cbn [t_nsec t_zone] in A, B. subst v z. unfold compared. all_of.
  all: first [reflexivity | vm_compute; reflexivity].
Qed.
Lemma b_compared : Forall (fun e => boundary e = false) (compared E now).
Proof. unfold compared. all_of; reflexivity. Qed.
Lemma b_not : Forall (fun e => boundary e = false) (not_compared E now).
Proof. unfold not_compared. all_of; reflexivity. Qed.
Lemma all_runs l : Forall (wf E) l -> Forall (fun e => boundary e = false) l -> Forall (runs E) l.
Proof.
  intros W B. induction l as [|e l IH]; [constructor|]. inversion W; inversion B; subst. constructor; [|auto].
  destruct (round_trip E e) as (d & A & D); auto. exists d, (counted e d). auto.
Qed.
Lemma compared_pass : Forall (passes E) (compared E now).
Proof.
  pose proof (all_runs _ w_compared b_compared) as R. pose proof s_compared as S. revert R S. induction (compared E now) as [|e l IH]; [constructor|].
  intros R S. inversion R as [|? ? (d & n & P & Q)]; inversion S as [|? ? V]; subst. constructor; [|auto]. exists d, n. rewrite <- V. auto.
Qed.
Lemma not_compared_run : Forall (runs E) (not_compared E now).
Proof. exact (all_runs _ w_not b_not). Qed.
Lemma no_pass e : runs E e -> sent E e <> encoded e -> ~ passes E e.
Proof. intros (d & n & P & Q) D (d' & n' & P' & Q'). rewrite P in P'. injection P' as <-. rewrite Q in Q'. injection Q' as V _. contradiction. Qed.
Lemma cannot_pass e : In e (firstn 4 (not_compared E now)) -> ~ passes E e.
Proof.
  intros I. apply no_pass. { apply (proj1 (Forall_forall _ _) not_compared_run). rewrite <- (firstn_skipn 4 (not_compared E now)). apply in_or_app. auto. }
  cbn [firstn not_compared In] in I. clear N G.
  destruct I as [<-|[<-|[<-|[<-|[]]]]]; intros H; vm_compute in H; discriminate H.
Qed.
Lemma could_pass e : In e (skipn 4 (not_compared E now)) -> passes E e.
Proof.
  intros I. assert (R : runs E e). { apply (proj1 (Forall_forall _ _) not_compared_run). rewrite <- (firstn_skipn 4 (not_compared E now)). apply in_or_app. auto. }
  cbn [skipn not_compared In] in I. destruct R as (d & n & P & Q). exists d, n. destruct I as [<-|[<-|[]]]; auto.
Qed.
(** the day of [now], at midnight *)
Definition midnight : gotime := GoTime (t_sec now - (t_sec now + tz_off env) mod 86400) 0 (tz_off env).
Lemma driver_pass : exists d n x, encode E (E0702 (test_driver now)) = Ok d /\ decode E 0x0702 d = Ok (E0702 x, n) /\ with_expiry x now = test_driver now.
Proof.
  set (e := E0702 (T0702 21 now 1 s_driver s_number s_company midnight)).
  assert (W : wf E e).
  { unfold e. cbn [wf a0702_time a0702_name a0702_number a0702_company a0702_expiry]. w. destruct N as (_ & _ & B). unfold date_ok, midnight. cbn [t_zone t_sec gb_env tz_off]. lia. }
  destruct (round_trip E e W eq_refl) as (d & A & D). exists d, (counted e d).
  assert (S : encode E (E0702 (test_driver now)) = encode E e).
  { unfold e. cbn [encode]. unfold enc_0702, test_driver. cbn [a0702_state a0702_time a0702_ic a0702_name a0702_number a0702_company a0702_expiry].
    replace (format_date (t_sec midnight + t_zone midnight)) with (format_date (t_sec now + t_zone now)); [reflexivity|].
    destruct N as (_ & Z & _). unfold midnight. cbn [t_sec t_zone]. rewrite Z. set (l := t_sec now + tz_off env).
    replace (t_sec now - l mod 86400 + tz_off env) with (l / 86400 * 86400) by lia. unfold format_date, year_of, month_of, day_of. replace (l / 86400 * 86400 / 86400) with (l / 86400) by lia. reflexivity. }
  rewrite S. eexists. split; [exact A|]. split; [exact D|]. unfold with_expiry, test_driver. cbn [a0702_state a0702_time a0702_ic a0702_name a0702_number a0702_company]. rewrite (now_sent). reflexivity.
Qed.
End Suite.

(** ** multipart_test.go *)
Lemma upload_pass before f outs : Forall mop_ok before -> mrun empty_fs [] (before ++ test_calls) = Ok (f, outs) ->
  is_full f test_upload = Ok true /\ exists c f', mp_merge f test_upload = Ok (c, f').
Proof.
  intros B R. assert (O : Forall mop_ok (before ++ test_calls)).
  { apply Forall_app. split; [exact B|]. unfold test_calls, test_writes. cbn [map]. repeat (apply Forall_cons; [cbn [mop_ok fst]; split; [vm_compute; repeat split; discriminate|unfold is_u16; lia]|]). apply Forall_nil. }
  assert (M : mpf_ok test_upload) by (vm_compute; repeat split; discriminate). split.
  - apply (full_iff _ f outs test_upload O M); [vm_compute; discriminate|exact R|]. intros i I. change (mp_sum test_upload) with 3 in I.
    unfold written. rewrite fold_left_app. assert (C : i = 1 \/ i = 2 \/ i = 3) by lia. destruct C as [->|[->| ->]]; cbn; discriminate.
  - destruct (merge_exact _ f outs test_upload O M) with (2 := R) as (l & f' & _ & E); [|eauto].
    exists test_upload, 2, [3; 4]. split; [apply in_or_app; right; left; reflexivity|reflexivity].
Qed.
Lemma upload_fresh : exists f f', mrun empty_fs [] test_calls = Ok (f, []) /\ mp_merge f test_upload = Ok ([1; 2; 3; 4; 5; 6], f').
Proof. do 2 eexists. split; [vm_compute; reflexivity|]. vm_compute. reflexivity. Qed.
