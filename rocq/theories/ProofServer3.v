(** The server: delivery of messages, and whole histories. *)
From Coq Require Import Sorted Permutation.
From Verif Require Import Base LibBase Bits LibBits Env EntTerm EntPlat Registry Message Timer Session Multipart Server.
From Verif Require Import SpecSession ProofSession ProofSession2 ProofSession3.
From Verif Require Import SpecMulti SpecTimer SpecServer LibMulti ProofMulti ProofMulti2 ProofMulti3 ProofTimer ProofTimer2 ProofServer ProofServer2.

Lemma all_writtenb_spec h m : 0 <= mp_sum m -> all_writtenb h m = true <-> all_written h m.
Proof.
  intros S. unfold all_writtenb, all_written. rewrite forallb_forall. split; intros H i I.
  - specialize (H i). destruct (written h m i); [discriminate|]. exfalso. assert (X : false = true) by (apply H, in_seq_set; auto). discriminate.
  - apply in_seq_set in I; auto. specialize (H i I). destruct (written h m i); congruence.
Qed.

Section Server.
Context (mg : bool) (ka : Z) (prior : list mop).
Notation sinv := (sinv mg ka prior).
Notation oinv := (oinv mg prior).
Notation step_ok := (step_ok mg ka prior).
Notation hist_of tr := (history mg prior (ops_of tr)).

(** [session.message] on a received message *)
Lemma message_ok s m : proper m -> okreqs (ss_reqs s) -> exists s' cb, session_message s m = Ok (s', cb) /\
  ss_icc s' = (if 0 <? h_icc (m_hdr m) then h_icc (m_hdr m) else ss_icc s) /\ ss_next s' = ss_next s /\
  (cb = None /\ ss_reqs s' = ss_reqs s /\ (forall r, In r (ss_reqs s) -> ~ answers m (rq_serial r)) \/
   exists r, cb = Some (rq_tok r) /\ answers m (rq_serial r) /\ Permutation (ss_reqs s) (r :: ss_reqs s')).
Proof.
  intros P (_ & _ & R). destruct (reply_proper m P) as (n & E & U). unfold session_message. rewrite E. cbn [bind]. rewrite Forall_forall in R. destruct (Z.eqb_spec n 0) as [->|NZ].
  - do 2 eexists. split; [reflexivity|]. split; [reflexivity|]. split; [reflexivity|]. left. split; auto. split; auto. intros r I A. apply U in A. specialize (R r I). lia.
  - pose proof (take_spec (ss_reqs s) n) as T. destruct (take_request (ss_reqs s) n) as [[r|] l]; do 2 eexists; (split; [reflexivity|]); (split; [reflexivity|]); (split; [reflexivity|]).
    + destruct T as (T & S & _). right. exists r. split; auto. split; [|exact T]. rewrite S. apply reply_quotes; auto.
    + destruct T as (-> & T). left. split; auto. split; auto. intros r I A. apply U in A. rewrite Forall_forall in T. apply (T r I). auto.
Qed.

(** The state after a message was passed on: object, timer and files may change. *)
Definition plain_evs (id : Z) (evs : list sv_event) : Prop := (forall x, shuts x evs = true -> x = id) /\ (forall x, gones x evs = false) /\ (forall x, touches x evs = true -> x = id).
Lemma deliver_step tr sv sv' id now m evs o o' : sinv tr sv -> obj_get (sv_objs sv) id = Some o ->
  sv_auto sv' = sv_auto sv -> sv_handlers sv' = sv_handlers sv -> sv_reg sv' = sv_reg sv -> sv_objs sv' = obj_set (sv_objs sv) id o' ->
  tight (sv_timer sv') -> view (sv_timer sv') (fold_left (dl_event ka) evs (deadlines ka tr)) -> tm_seconds (sv_timer sv') = ka ->
  Forall mop_ok (hi_up (hist_step mg (hist_of tr) (ODeliver id now m))) ->
  (exists outs, mrun empty_fs [] (hi_up (hist_step mg (hist_of tr) (ODeliver id now m))) = Ok (sv_fs sv', outs)) ->
  (forall x, x <> id -> hi_icc (hist_step mg (hist_of tr) (ODeliver id now m)) x = hi_icc (hist_of tr) x) ->
  sess_ok mg prior tr id (so_sess o') (ODeliver id now m) evs ->
  so_closed o' = so_closed o || shuts id evs -> so_full o' = so_full o -> so_cb o' = so_cb o -> so_ran o' = so_ran o ->
  plain_evs id evs -> sinv (tr ++ [(ODeliver id now m, evs)]) sv'.
Proof.
  intros V G H1 H2 H3 H4 T TV TS UO UF KO KI C1 C2 C3 C4 (PS & PG & PT). pose proof V as [V1 V2 V3 V4 V5 V6 V7 V8 V9 V10 V11 V12 V13].
  pose proof (V8 id) as I. rewrite G in I.
  destruct (new_step mg ka prior tr sv (ODeliver id now m) evs V) as (NW1 & NW2); [intros x X; apply PT in X; subst; apply I|].
  rewrite ops_snoc, connects_snoc, app_nil_r in NW1. rewrite ops_snoc, connects_snoc, asked_snoc, !app_nil_r in NW2.
  constructor; rewrite ?H1, ?H2, ?H3, ?ops_snoc, ?connects_snoc, ?asked_snoc, ?history_snoc, ?deadlines_snoc; cbn [fst]; rewrite ?app_nil_r; auto.
  - intros i. rewrite V2, handler_snoc. reflexivity.
  - intros x. rewrite H4, obj_get_set. destruct (Z.eqb_spec id x) as [<-|N].
    + eapply (oinv_step mg prior); eauto; try exact Logic.I. rewrite PG, orb_false_r. auto.
    + apply (same_others mg ka prior); auto; try exact Logic.I.
      * destruct (shuts x evs) eqn:X; auto. apply PS in X. congruence.
      * destruct (touches x evs) eqn:X; auto. apply PT in X. congruence.
  - intros x. rewrite is_gone_snoc, PG, orb_false_r. auto.
  - intros x. rewrite is_gone_snoc, is_shut_snoc, PG, orb_false_r. intros [X|X]; [|auto]. apply orb_true_iff in X. destruct X as [X|X]; auto. apply PS in X. subst. apply I.
Qed.

(** Taking the answered request off the list *)
Lemma wait_answer w id now m0 evs r x : (forall y tok m, In (SvAnswer y tok m) evs -> y = id /\ tok = rq_tok r) -> (exists m, In (SvAnswer id (rq_tok r) m) evs) ->
  In (id, x) (wait_step w (ODeliver id now m0, evs)) <-> In (id, x) w /\ rq_tok x <> rq_tok r.
Proof.
  intros O (m & E). cbn [wait_step]. rewrite filter_In, negb_true_iff. cbn [fst snd].
  assert (K : existsb (fun ev => match ev with SvAnswer i tok _ => (i =? id) && (tok =? rq_tok x) | _ => false end) evs = true <-> rq_tok x = rq_tok r).
  { rewrite existsb_exists. split.
    - intros (ev & I & A). destruct ev; try discriminate. apply O in I. lia.
    - intros X. exists (SvAnswer id (rq_tok r) m). split; auto. lia. }
  rewrite <- not_true_iff_false, K. tauto.
Qed.
(** message and dispatch *)
Lemma md_spec tr sv0 sv id now o m : sinv tr sv0 -> sv_handlers sv = sv_handlers sv0 -> sv_timer sv = sv_timer sv0 -> proper m ->
  okreqs (ss_reqs (so_sess o)) -> (forall r, In r (ss_reqs (so_sess o)) <-> In (id, r) (waiting tr)) ->
  exists sv' s' evs, message_and_dispatch sv id now o m = Ok (sv', evs) /\ dispatching tr id now m evs /\
    sv_auto sv' = sv_auto sv /\ sv_handlers sv' = sv_handlers sv /\ sv_reg sv' = sv_reg sv /\ sv_fs sv' = sv_fs sv /\ sv_objs sv' = obj_set (sv_objs sv) id (with_sess o s') /\
    ss_icc s' = (if 0 <? h_icc (m_hdr m) then h_icc (m_hdr m) else ss_icc (so_sess o)) /\
    tight (sv_timer sv') /\ view (sv_timer sv') (fold_left (dl_event ka) evs (deadlines ka tr)) /\ tm_seconds (sv_timer sv') = ka /\
    (forall x, shuts x evs = false) /\ (forall x, gones x evs = false) /\ ss_next s' = ss_next (so_sess o) /\ okreqs (ss_reqs s') /\
    (forall e1 m0 r, (forall x tok y, ~ In (SvAnswer x tok y) e1) -> In r (ss_reqs s') <-> In (id, r) (wait_step (waiting tr) (ODeliver id now m0, e1 ++ evs))) /\
    (forall x, cnt x evs = O) /\ (forall x, touches x evs = true -> x = id).
Proof.
  intros V H1 H2 P OK RQ. pose proof V as [V1 V2 V3 V4 V5 V6 V7 V8 V9 V10 V11 V12 V13]. destruct (message_ok (so_sess o) m P OK) as (s' & cb & E & IC & NX & CB).
  unfold message_and_dispatch. rewrite E. cbn [bind]. unfold dispatch. cbn [set_obj sv_handlers sv_timer]. rewrite H1, H2, V2.
  set (ans := match cb with Some tok => [SvAnswer id tok m] | None => [] end).
  set (tail := match handler_of (ops_of tr) (h_id (m_hdr m)) with Some h => [SvRefresh id now; SvHandle id h m] | None => [] end).
  assert (A : ans = [] /\ (forall r, In (id, r) (waiting tr) -> ~ answers m (rq_serial r)) \/ exists r, In (id, r) (waiting tr) /\ answers m (rq_serial r) /\ ans = [SvAnswer id (rq_tok r) m]).
  { unfold ans. destruct CB as [(-> & _ & X)|(r & -> & X & Y)]; [left; split; auto; intros r Z; apply X, RQ; auto|right]. exists r. split; auto. apply RQ. apply (Permutation_in _ (Permutation_sym Y)). left; auto. }
  assert (OK' : okreqs (ss_reqs s')).
  { destruct CB as [(_ & -> & _)|(r & _ & _ & Y)]; auto. destruct OK as (O1 & O2 & O3). split; [|split].
    - apply (Permutation_NoDup (Permutation_map rq_tok Y)) in O1. inversion O1; auto.
    - apply (Permutation_NoDup (Permutation_map rq_msgid Y)) in O2. inversion O2; auto.
    - apply (perm_forall _ _ _ Y) in O3. inversion O3; auto. }
  assert (TN : forall x tok y, ~ In (SvAnswer x tok y) tail) by (intros x tok y; unfold tail; destruct (handler_of _ _); cbn; intuition discriminate).
  assert (W : forall e1 m0 r, (forall x tok y, ~ In (SvAnswer x tok y) e1) -> In r (ss_reqs s') <-> In (id, r) (wait_step (waiting tr) (ODeliver id now m0, e1 ++ ans ++ tail))).
  { intros e1 m0 r N1. destruct CB as [(-> & -> & X)|(q & -> & X & Y)].
    - rewrite wait_plain; auto. cbn [ans app]. intros x tok y Z. apply in_app_iff in Z. destruct Z as [Z|Z]; [eapply N1; eauto|eapply TN; eauto].
    - rewrite (wait_answer _ _ _ _ _ q).
      + rewrite <- RQ. destruct OK as (O1 & _). apply (Permutation_NoDup (Permutation_map rq_tok Y)) in O1. cbn [map] in O1. apply NoDup_cons_iff in O1. destruct O1 as (O1 & _). split.
        * intros Z. split; [apply (Permutation_in _ (Permutation_sym Y)); right; auto|]. intros Q. apply O1. rewrite <- Q. apply in_map. auto.
        * intros (Z & Q). apply (Permutation_in _ Y) in Z. destruct Z as [Z|Z]; auto. subst. congruence.
      + intros x tok y Z. rewrite !in_app_iff in Z. destruct Z as [Z|[[Z|[]]|Z]]; [apply N1 in Z; contradiction|injection Z as -> -> _; auto|apply TN in Z; contradiction].
      + exists m. rewrite !in_app_iff. right. left. left. reflexivity. }
  assert (SA : forall x l, shuts x (ans ++ l) = shuts x l) by (intros x l; unfold ans; destruct cb; reflexivity).
  assert (GA : forall x l, gones x (ans ++ l) = gones x l) by (intros x l; unfold ans; destruct cb; reflexivity).
  assert (DA : forall l f, fold_left (dl_event ka) (ans ++ l) f = fold_left (dl_event ka) l f) by (intros l f; unfold ans; destruct cb; reflexivity).
  assert (CN : forall x, cnt x (ans ++ tail) = O) by (intros x; unfold ans, tail; destruct cb, (handler_of _ _); reflexivity).
  assert (TO : forall x, touches x (ans ++ tail) = true -> x = id).
  { intros x. unfold ans, tail. destruct cb, (handler_of _ _); cbn; rewrite ?orb_false_r; intros X; try discriminate; lia. }
  destruct (handler_of (ops_of tr) (h_id (m_hdr m))) as [h|] eqn:Hd.
  - destruct (timer_update_ok ka (sv_timer sv0) id now _ V3 V4 V5) as (t & -> & T & TV & TS). cbn [bind]. exists (set_timer (set_obj sv id (with_sess o s')) t), s', (ans ++ tail).
    split; [reflexivity|]. split; [exists ans; rewrite Hd; auto|]. cbn [set_timer set_obj sv_auto sv_handlers sv_reg sv_fs sv_objs sv_timer]. do 7 (split; [auto|]). split; [rewrite DA; exact TV|]. split; [auto|]. split; [|split].
    + intros x. rewrite SA. reflexivity.
    + intros x. rewrite GA. reflexivity.
    + auto.
  - cbn [bind]. exists (set_obj sv id (with_sess o s')), s', (ans ++ tail). split; [reflexivity|]. split; [exists ans; rewrite Hd; auto|].
    cbn [set_timer set_obj sv_auto sv_handlers sv_reg sv_fs sv_objs sv_timer]. rewrite ?H2. do 7 (split; [auto|]). split; [rewrite DA; exact V4|]. split; [auto|]. split; [|split].
    + intros x. rewrite SA. reflexivity.
    + intros x. rewrite GA. reflexivity.
    + auto.
Qed.

Lemma deliver_reply tr sv id now o m r : sinv tr sv -> obj_get (sv_objs sv) id = Some o -> hist_step mg (hist_of tr) (ODeliver id now m) = hist_of tr ->
  exists sv' evs, (let '(sv1, _, evs) := sv_send sv id o (reply_entity m r) in Ok (sv1, evs)) = Ok (sv', evs) /\ sinv (tr ++ [(ODeliver id now m, evs)]) sv' /\
    sending mg prior tr id (response m r) evs.
Proof.
  intros V G HS. pose proof (si_objs _ _ _ _ _ V id) as I. rewrite G in I.
  destruct (send_spec mg ka prior tr sv id o (reply_entity m r) I) as (o' & evs & -> & S & H1 & H2 & H3 & H4 & H5 & H6 & H7 & H8 & H9 & H10 & H11 & H12).
  do 2 eexists. split; [reflexivity|]. split; [|exact S]. pose proof V as [V1 V2 V3 V4 V5 V6 V7 V8 V9 V10 V11 V12 V13].
  eapply deliver_step; eauto; try rewrite HS; try reflexivity; auto.
  - rewrite H8. auto.
  - eapply (sess_send mg prior); eauto. rewrite HS. reflexivity.
  - split; [|split; auto]; intros x X; destruct (Z.eq_dec x id); auto; [rewrite H6 in X by auto|rewrite H11 in X by auto]; discriminate.
Qed.

Lemma deliver_whole tr sv id now o m : sinv tr sv -> obj_get (sv_objs sv) id = Some o -> proper m -> has_body m = true -> part_of mg m = None ->
  exists sv' evs, message_and_dispatch sv id now o m = Ok (sv', evs) /\ sinv (tr ++ [(ODeliver id now m, evs)]) sv' /\ dispatching tr id now m evs.
Proof.
  intros V G P B PO. pose proof (si_objs _ _ _ _ _ V id) as I. rewrite G in I.
  destruct (md_spec tr sv sv id now o m V eq_refl eq_refl P) as (sv' & s' & evs & E & D & A1 & A2 & A3 & A4 & A5 & A6 & A7 & A8 & A9 & A10 & A11 & A12 & A13 & A14 & A15 & A16); [apply I|apply I|].
  exists sv', evs. split; auto. split; auto. pose proof V as [V1 V2 V3 V4 V5 V6 V7 V8 V9 V10 V11 V12 V13].
  assert (HS : hist_step mg (hist_of tr) (ODeliver id now m) = Hist (hi_up (hist_of tr)) (told (hi_icc (hist_of tr)) id m)) by (cbn [hist_step]; rewrite B, PO; reflexivity).
  eapply deliver_step; eauto; try rewrite HS; cbn [hi_up hi_icc so_sess with_sess so_closed so_full so_cb so_ran]; auto.
  - rewrite A4. auto.
  - intros x N. unfold told. destruct (Z.eqb_spec x id); [contradiction|reflexivity].
  - split; [|split; [|split; auto]].
    + rewrite HS. cbn [hi_icc]. unfold told. rewrite Z.eqb_refl, A6. cbn [andb]. destruct (0 <? h_icc (m_hdr m)); auto. apply I.
    + unfold next_ok. rewrite A10, A15, orb_false_r, A12, Nat.add_0_r. apply I.
    + intros r. apply (A14 []). intros x tok y [].
  - rewrite A10, orb_false_r. reflexivity.
  - split; [|split; auto]. intros x X. rewrite A10 in X. discriminate.
Qed.

Lemma received_proper m e : received m -> m_body m = BEnt e -> proper m.
Proof. intros (_ & _ & _ & _ & _ & B) E. rewrite E in B. exists e. tauto. Qed.

Lemma step_deliver tr sv id now m : sinv tr sv -> In id (connects (ops_of tr)) -> received m -> step_ok tr sv (ODeliver id now m).
Proof.
  intros V C R. unfold ProofServer.step_ok. cbn [sv_step effect]. destruct (si_get _ _ _ tr sv id V C) as (o & G & I). rewrite G. unfold delivery, deliver.
  destruct (m_body m) as [|nid|b] eqn:MB.
  1,2: assert (HB : has_body m = false) by (unfold has_body; rewrite MB; reflexivity); rewrite HB; apply deliver_reply; auto; cbn [hist_step]; rewrite HB; reflexivity.
  assert (HB : has_body m = true) by (unfold has_body; rewrite MB; reflexivity). rewrite HB.
  pose proof (received_proper m b R MB) as PR. pose proof R as (R1 & R2 & R3 & R4 & R5 & R6). rewrite MB in R6. destruct R6 as (RE & R6).
  rewrite (si_auto _ _ _ _ _ V), is_enable_packet_bit.
  destruct (part_of mg m) as [[[mf sq] data]|] eqn:PO.
  2:{
      destruct (deliver_whole tr sv id now o m V G PR HB PO) as (sv' & evs & E & V' & D). exists sv', evs. split; [|auto]. rewrite <- E.
      unfold part_of in PO. rewrite MB in PO. destruct (h_packet (m_hdr m)) as [[sum s]|]; [|rewrite R4; rewrite orb_true_r; reflexivity].
      destruct mg; [|reflexivity]. destruct R4 as (_ & _ & R4). rewrite R4. cbn [negb orb]. destruct b; try reflexivity. discriminate. }
  (* a packet *)
  pose proof PO as PO0.
  unfold part_of in PO. rewrite MB in PO. destruct (h_packet (m_hdr m)) as [[sum s]|] eqn:HP; [|discriminate]. destruct b; try discriminate.
  assert (MG : mg = true) by (destruct mg; [reflexivity|discriminate]). rewrite MG in PO. injection PO as <- <- Ed. destruct R4 as (RS & RQ & RB). rewrite RB.
  replace (negb mg || negb true) with false by (rewrite MG; reflexivity). cbn iota. destruct R6 as (RM & dd & RP). rewrite RP in *. cbn [rdr_data rdr_fail] in *. subst dd.
  set (mf := Mpf (h_icc (m_hdr m)) (h_id (m_hdr m)) (a0800_media (a0801_head e)) sum).
  assert (MO : mpf_ok mf) by (unfold mpf_ok, mf; cbn [mp_icc mp_msgid mp_tag mp_sum]; split; [lia|tauto]).
  set (up := hi_up (history mg prior (ops_of tr))).
  pose proof V as [V1 V2 V3 V4 V5 V6 V7 V8 V9 V10 V11 V12 V13]. fold up in V6, V7. destruct V7 as (outs & RUN).
  pose proof (minv_of _ _ _ V6 RUN) as MI. destruct MI as (PRIV & _).
  assert (O1 : Forall mop_ok (up ++ [MWrite mf s data])) by (apply Forall_app; split; auto; constructor; [|constructor]; cbn; auto).
  destruct (mp_write (sv_fs sv) mf s data) as [f1| |] eqn:MW; [|unfold mp_write in MW; rewrite PRIV in MW; discriminate|unfold mp_write in MW; rewrite PRIV in MW; discriminate].
  assert (RUN1 : mrun empty_fs [] (up ++ [MWrite mf s data]) = Ok (f1, outs)) by (rewrite mrun_app, RUN; cbn [bind mrun]; rewrite MW; reflexivity).
  assert (T1 : touched (up ++ [MWrite mf s data]) (mp_icc mf)) by (apply touched_snoc; right; exists mf, s, data; auto).
  destruct (full_answers _ _ _ _ O1 MO T1 RUN1) as (full & FE & FI). rewrite FE. cbn [bind].
  assert (SU : 0 <= mp_sum mf) by (unfold mf; cbn; unfold is_u16 in RS; lia).
  assert (FB : full = all_writtenb (up ++ [MWrite mf s data]) mf).
  { apply eq_true_iff_eq. rewrite FI, all_writtenb_spec by auto. tauto. }
  assert (HS0 : hist_step mg (history mg prior (ops_of tr)) (ODeliver id now m) =
    if completes up (mf, s, data) then Hist (up ++ [MWrite mf s data; MMerge mf]) (told (hi_icc (history mg prior (ops_of tr))) id m)
    else Hist (up ++ [MWrite mf s data]) (hi_icc (history mg prior (ops_of tr)))).
  { cbn [hist_step]. rewrite HB. rewrite PO0. reflexivity. }
  assert (CO : completes up (mf, s, data) = (s =? sum) && full) by (rewrite FB; reflexivity).
  destruct (send_spec mg ka prior tr (set_fs sv f1) id o (reply_entity m result_success) I) as (o1 & evs & SE & S & H1 & H2 & H3 & H4 & H5 & H6 & H7 & H8 & H9 & H10 & H11 & H12). rewrite SE.
  assert (PE : plain_evs id evs) by (split; [|split; auto]; intros x X; destruct (Z.eq_dec x id); auto; [rewrite H6 in X by auto|rewrite H11 in X by auto]; discriminate).
  destruct (completes up (mf, s, data)) eqn:CM.
  - symmetry in CO. apply andb_true_iff in CO. destruct CO as (-> & ->). cbn [negb].
    destruct (merge_merged _ _ _ _ O1 MO T1 RUN1) as (c & f2 & ME & MC). rewrite ME.
    set (m' := Message (m_hdr m) (BEnt (E0801 (T0801 (a0801_head e) (a0801_loc e) (Some (Rdr c false)))))).
    assert (PR' : proper m') by (exists (E0801 (T0801 (a0801_head e) (a0801_loc e) (Some (Rdr c false)))); split; auto).
    destruct (md_spec tr sv (set_fs (set_obj (set_fs sv f1) id o1) f2) id now o1 m') as (sv' & s' & evs2 & E & D & A1 & A2 & A3 & A4 & A5 & A6 & A7 & A8 & A9 & A10 & A11 & A12 & A13 & A14 & A15 & A16); auto; [rewrite H9; apply I|rewrite H9; apply I|].
    rewrite E. cbn [bind]. exists sv', (evs ++ evs2). split; [reflexivity|]. split.
    2:{ exists c, evs, evs2. split; auto. split; auto. split; auto. unfold with_data. rewrite MB. exact D. }
    assert (SA : forall x, shuts x (evs ++ evs2) = shuts x evs) by (intros; unfold shuts in *; rewrite existsb_app, A10; apply orb_false_r).
    assert (CA : forall x, cnt x (evs ++ evs2) = cnt x evs) by (intros; unfold cnt, sends; rewrite flat_map_app, filter_app, app_length; specialize (A15 x); unfold cnt, sends in A15; lia).
    assert (GA : forall x, gones x (evs ++ evs2) = false) by (intros; unfold gones in *; rewrite existsb_app, H7, A11; reflexivity).
    cbn [set_fs set_obj sv_auto sv_handlers sv_reg sv_objs sv_fs] in A1, A2, A3, A4, A5. rewrite obj_set_set in A5.
    eapply deliver_step; eauto; rewrite ?HS0; cbn [hi_up hi_icc so_sess with_sess so_closed so_full so_cb so_ran]; auto.
    + rewrite fold_left_app, H8. auto.
    + change [MWrite mf s data; MMerge mf] with ([MWrite mf s data] ++ [MMerge mf]). rewrite app_assoc. apply Forall_app. split; auto.
    + change [MWrite mf s data; MMerge mf] with ([MWrite mf s data] ++ [MMerge mf]). rewrite app_assoc, mrun_app, RUN1. cbn [bind mrun]. rewrite ME. cbn [bind]. rewrite A4. eauto.
    + intros x N. unfold told. destruct (Z.eqb_spec x id); [contradiction|reflexivity].
    + split; [|split; [|split; auto]].
      * rewrite HS0. cbn [hi_icc]. unfold told. rewrite Z.eqb_refl, A6, H1. cbn [andb]. change (m_hdr m') with (m_hdr m). destruct (0 <? h_icc (m_hdr m)); auto. apply I.
      * unfold next_ok in *. rewrite SA, CA, A12. auto.
    + rewrite SA. auto.
    + split; [|split; auto]; intros x; [rewrite SA; apply PE|]. unfold touches. rewrite existsb_app, orb_true_iff. intros [X|X]; [apply PE|apply A16]; auto.
  - assert (X : (if negb (s =? sum) then Ok (set_obj (set_fs sv f1) id o1, evs) else if negb full then Ok (set_obj (set_fs sv f1) id o1, evs) else
      match mp_merge f1 mf with
      | Ok (content, f2) => do (sv2, evs2) <- message_and_dispatch (set_fs (set_obj (set_fs sv f1) id o1) f2) id now o1
           (Message (m_hdr m) (BEnt (E0801 (T0801 (a0801_head e) (a0801_loc e) (Some (Rdr content false)))))) ; Ok (sv2, evs ++ evs2)
      | Err _ => Ok (set_obj (set_fs sv f1) id o1, evs)
      | Panic => Panic
      end) = Ok (set_obj (set_fs sv f1) id o1, evs)).
    { destruct (s =? sum); cbn [negb]; auto. destruct full; [discriminate|]. reflexivity. }
    exists (set_obj (set_fs sv f1) id o1), evs. split; [exact X|]. split; [|exact S]. clear X.
    eapply deliver_step; eauto; rewrite ?HS0; cbn [hi_up hi_icc set_obj set_fs sv_auto sv_handlers sv_reg sv_objs sv_fs sv_timer]; auto.
    + rewrite H8. auto.
    + eauto.
    + eapply (sess_send mg prior); eauto. rewrite HS0. reflexivity.
Qed.
End Server.

(** ** Whole histories *)
Lemma step_all mg ka prior tr sv op : sinv mg ka prior tr sv -> legal_op (ops_of tr) op -> step_ok mg ka prior tr sv op.
Proof.
  intros V L. destruct op; cbn [legal_op] in L.
  - apply step_connect; auto.
  - apply step_addcb; auto.
  - destruct L. apply step_deliver; auto.
  - apply step_close; auto.
  - apply step_runclose; auto.
  - apply step_tick; auto.
  - apply step_broadcast; auto.
  - apply step_sendto; auto.
  - apply step_request; auto.
  - apply step_handler; auto.
  - apply step_queue; auto.
Qed.
Definition exact (mg : bool) (ka : Z) (prior : list mop) (tr : trace) : Prop :=
  forall pre op evs post, tr = pre ++ (op, evs) :: post -> effect mg ka prior pre op evs.
Lemma exact_snoc mg ka prior tr op evs : exact mg ka prior tr -> effect mg ka prior tr op evs -> exact mg ka prior (tr ++ [(op, evs)]).
Proof.
  intros E F pre op' evs' post H. destruct post as [|x post] using rev_ind.
  - apply app_inj_tail in H. destruct H as (-> & H). injection H as -> ->. auto.
  - clear IHpost. change (pre ++ (op', evs') :: post ++ [x]) with (pre ++ ((op', evs') :: post) ++ [x]) in H. rewrite app_assoc in H. apply app_inj_tail in H. destruct H as (-> & _). eapply E. reflexivity.
Qed.
Lemma run_all mg ka prior ops : forall tr sv, sinv mg ka prior tr sv -> exact mg ka prior tr -> legal (ops_of tr ++ ops) ->
  exists sv' tr', sv_run sv ops = Ok (sv', tr') /\ ops_of tr' = ops /\ sinv mg ka prior (tr ++ tr') sv' /\ exact mg ka prior (tr ++ tr').
Proof.
  induction ops as [|op ops IH]; intros tr sv V X L; cbn [sv_run].
  - exists sv, []. rewrite app_nil_r. auto.
  - destruct (step_all mg ka prior tr sv op V) as (sv1 & evs & -> & V1 & F); [apply (L _ _ _ eq_refl)|]. cbn [bind].
    destruct (IH (tr ++ [(op, evs)]) sv1 V1) as (sv2 & tr2 & -> & O2 & V2 & X2).
    + apply exact_snoc; auto.
    + rewrite ops_snoc, <- app_assoc. exact L.
    + cbn [bind]. rewrite <- app_assoc in V2, X2. exists sv2, ((op, evs) :: tr2). cbn [ops_of map fst]. unfold ops_of in O2. rewrite O2. auto.
Qed.
Lemma start_inv o prior sv : starts o prior sv -> sinv (opt_auto o) (keepalive o) prior [] sv.
Proof.
  intros (f & outs & F & R & N). assert (E : sv = Server (opt_auto o) [] (timer_new (keepalive o)) f [] []).
  { unfold new_server in N. unfold keepalive. replace (0 <? opt_keepalive o) with (negb (opt_keepalive o <=? 0)) by lia.
    destruct (opt_key o) as [b|]; [destruct (negb _); [discriminate|]|]; injection N as <-; destruct (opt_keepalive o <=? 0); reflexivity. }
  subst sv. constructor; cbn [sv_auto sv_handlers sv_timer sv_fs sv_objs sv_reg obj_get]; auto.
  - apply tight_new.
  - apply view_new.
  - exists outs. exact R.
  - constructor.
  - cbn. intuition.
  - cbn. intuition discriminate.
Qed.
Lemma run_exact o prior sv ops : starts o prior sv -> legal ops -> exists sv' tr, sv_run sv ops = Ok (sv', tr) /\ ops_of tr = ops /\
  sinv (opt_auto o) (keepalive o) prior tr sv' /\ exact (opt_auto o) (keepalive o) prior tr.
Proof.
  intros S L. destruct (run_all _ _ _ ops [] sv (start_inv _ _ _ S)) as (sv' & tr & H); auto; [|eauto].
  intros pre op evs post H. destruct pre; discriminate.
Qed.
Lemma runs_exact o prior ops tr : runs o prior ops tr -> ops_of tr = ops /\ exact (opt_auto o) (keepalive o) prior tr.
Proof. intros (sv & sv' & S & L & R). destruct (run_exact o prior sv ops S L) as (sv2 & tr2 & R2 & O & _ & X). assert (tr2 = tr) by congruence. subst. auto. Qed.
