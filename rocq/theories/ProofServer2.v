(** The server: closing, ticks, broadcasts. *)
From Coq Require Import Sorted Permutation.
From Verif Require Import Base LibBase Bits LibBits Env EntTerm EntPlat Registry Message Timer Session Multipart Server.
From Verif Require Import SpecMulti SpecTimer SpecServer LibMulti ProofMulti ProofMulti2 ProofTimer ProofTimer2 ProofServer.

Section Server.
Context (mg : bool) (ka : Z) (prior : list mop).
Notation sinv := (sinv mg ka prior).
Notation oinv := (oinv mg prior).
Notation step_ok := (step_ok mg ka prior).
Notation hist_of tr := (history mg prior (ops_of tr)).

Lemma flat_map_ext_in' {A B} (g h : A -> list B) l : (forall x, In x l -> g x = h x) -> flat_map g l = flat_map h l.
Proof. induction l as [|x l IH]; cbn; intros H; auto. rewrite H, IH; auto. Qed.
Lemma nodup_filter (l : list Z) g : NoDup l -> NoDup (filter g l).
Proof. intros H. induction H as [|x l N H IH]; cbn; [constructor|]. destruct (g x); auto. constructor; auto. rewrite filter_In. tauto. Qed.
Lemma step_nothing tr sv op : sinv tr sv -> match op with OConnect _ _ | ODeliver _ _ _ | OAddHandler _ _ | OTick _ | OAddCb _ | OQueue _ _ => False | _ => True end ->
  sinv (tr ++ [(op, [])]) sv.
Proof.
  intros V OP. apply (objs_step mg ka prior tr sv); auto; try discriminate; [repeat split|destruct op; auto|]. intros x. apply (same_others mg ka prior); auto; [destruct op; cbn; tauto|].
  rewrite (hist_inert mg); auto. destruct op; tauto.
Qed.
Lemma step_runclose tr sv id : sinv tr sv -> step_ok tr sv (ORunClose id).
Proof.
  intros V. unfold ProofServer.step_ok. cbn [sv_step]. pose proof (si_objs _ _ _ _ _ V id) as I. destruct (obj_get (sv_objs sv) id) as [o|] eqn:G.
  - pose proof I as [A B C D E F F1 F2 F3]. destruct (so_closed o && so_cb o && negb (so_ran o)) eqn:X.
    + assert (Hc : so_closed o = true /\ so_cb o = true /\ so_ran o = false) by (destruct (so_closed o), (so_cb o), (so_ran o); auto; discriminate).
      destruct Hc as (HC & HB & HR). unfold handle_close. cbn [set_reg set_obj sv_timer sv_reg]. pose proof V as [V1 V2 V3 V4 V5 V6 V7 V8 V9 V10 V11 V12 V13].
      destruct (tight_remove _ id _ V3 V4) as (t & -> & T & TV & TS). cbn [bind]. do 2 eexists. split; [reflexivity|].
      assert (NG : is_gone tr id = false) by congruence. assert (SH : is_shut tr id = true) by congruence. assert (HK : hooked tr id) by (apply E; auto).
      split; [|left; auto].
      destruct (new_step mg ka prior tr sv (ORunClose id) [SvClosed id] V) as (NW1 & NW2); [discriminate|]. rewrite ops_snoc, connects_snoc, app_nil_r in NW1. rewrite ops_snoc, connects_snoc, asked_snoc, !app_nil_r in NW2.
      constructor; cbn [set_timer set_reg set_obj sv_auto sv_handlers sv_timer sv_fs sv_objs sv_reg]; rewrite ?ops_snoc, ?connects_snoc, ?asked_snoc, ?history_snoc, ?deadlines_snoc; cbn [fst]; rewrite ?app_nil_r; auto.
      * intros i. rewrite V2, handler_snoc. reflexivity.
      * congruence.
      * intros x. rewrite obj_get_set. destruct (Z.eqb_spec id x) as [<-|N].
        -- eapply (oinv_step mg prior); eauto; cbn; auto; [apply sess_same; auto|rewrite orb_false_r; auto|rewrite HR, Z.eqb_refl; auto].
        -- apply (same_others mg ka prior); cbn; auto. destruct (Z.eqb_spec id x); [contradiction|auto].
      * apply nodup_filter. auto.
      * intros x. rewrite filter_In, V10, is_gone_snoc. cbn [gones existsb]. rewrite orb_false_r. destruct (Z.eqb_spec x id) as [->|N].
        -- rewrite Z.eqb_refl, orb_true_r. cbn. intuition congruence.
        -- replace (id =? x) with false by lia. rewrite orb_false_r. cbn. tauto.
      * intros x. rewrite is_gone_snoc, is_shut_snoc. cbn [gones shuts existsb]. rewrite !orb_false_r. intros [H|H]; [auto|]. apply orb_true_iff in H. destruct H as [H|H]; auto. assert (x = id) by lia. subst; auto.
    + do 2 eexists. split; [reflexivity|]. split; [apply step_nothing; auto|]. right. split; auto. intros (H1 & H2 & H3). apply E in H1. rewrite H1, C, F, H2, H3 in X. discriminate.
  - do 2 eexists. split; [reflexivity|]. split; [apply step_nothing; auto|]. right. split; auto. intros (H & _). apply hooked_connected in H. contradiction.
Qed.

(** ** Ticks *)
Lemma shut_idem o : so_closed o = true -> shut o = o. Proof. destruct o. cbn. intros ->. reflexivity. Qed.
Definition live (sv : server) (id : Z) : bool := match obj_get (sv_objs sv) id with Some o => negb (so_closed o) | None => false end.
Lemma timeouts_spec keys : forall sv, NoDup keys -> exists sv', timeouts_loop sv keys = (sv', flat_map (fun id => shut_if (mem (sv_reg sv) id && live sv id) id) keys) /\ only_objs sv sv' /\
  forall x, obj_get (sv_objs sv') x = if existsb (Z.eqb x) keys && mem (sv_reg sv) x then option_map shut (obj_get (sv_objs sv) x) else obj_get (sv_objs sv) x.
Proof.
  induction keys as [|k keys IH]; intros sv N; cbn [timeouts_loop flat_map]; [exists sv; repeat split|]. inversion N as [|? ? Nk N']; subst.
  unfold handle_read_timeout, get_session. set (sv1 := if mem (sv_reg sv) k then fst (close_session sv k) else sv).
  assert (E1 : (if mem (sv_reg sv) k then close_session sv k else (sv, [])) = (sv1, shut_if (mem (sv_reg sv) k && live sv k) k) /\ only_objs sv sv1 /\
    forall x, obj_get (sv_objs sv1) x = if (x =? k) && mem (sv_reg sv) x then option_map shut (obj_get (sv_objs sv) x) else obj_get (sv_objs sv) x).
  { unfold sv1. destruct (mem (sv_reg sv) k) eqn:M; cbn [andb fst].
    - unfold close_session, live. destruct (obj_get (sv_objs sv) k) as [o|] eqn:G; [destruct (so_closed o) eqn:C|]; cbn [fst negb shut_if]; split; auto; split; try (repeat split; fail); intros x.
      + destruct (Z.eqb_spec x k) as [->|]; cbn [andb]; auto. rewrite M, G. cbn. rewrite shut_idem; auto.
      + cbn [set_obj sv_objs]. rewrite obj_get_set. destruct (Z.eqb_spec k x) as [<-|]; [rewrite Z.eqb_refl, M, G; reflexivity|]. destruct (Z.eqb_spec x k); [congruence|reflexivity].
      + destruct (Z.eqb_spec x k) as [->|]; cbn [andb]; auto. rewrite M, G. reflexivity.
    - split; auto. split; [repeat split|]. intros x. destruct (Z.eqb_spec x k) as [->|]; auto. rewrite M. reflexivity. }
  clearbody sv1. destruct E1 as (-> & (P1 & P2 & P3 & P4 & P5) & G1). destruct (IH sv1 N') as (sv2 & -> & (Q1 & Q2 & Q3 & Q4 & Q5) & G2). exists sv2. split; [|split].
  - f_equal. f_equal. rewrite P5. apply flat_map_ext_in'. intros x X. f_equal. unfold live. rewrite G1. destruct (Z.eqb_spec x k); [subst; contradiction|reflexivity].
  - repeat split; congruence.
  - intros x. rewrite G2, G1, P5. cbn [existsb]. destruct (Z.eqb_spec x k) as [->|]; cbn [orb andb]; auto.
    assert (X : existsb (Z.eqb k) keys = false).
    { destruct (existsb (Z.eqb k) keys) eqn:Y; auto. apply existsb_in in Y. contradiction. }
    rewrite X. reflexivity.
Qed.

Lemma shuts_flat x g keys : shuts x (flat_map (fun id => shut_if (g id) id) keys) = existsb (Z.eqb x) keys && g x.
Proof.
  induction keys as [|k keys IH]; cbn [flat_map existsb]; [reflexivity|]. unfold shuts in *. rewrite existsb_app, IH. destruct (Z.eqb_spec x k) as [->|N].
  - destruct (g k); cbn; [rewrite Z.eqb_refl; reflexivity|]. rewrite andb_false_r. reflexivity.
  - destruct (g k); cbn; auto. replace (k =? x) with false by lia. reflexivity.
Qed.
Lemma gones_flat x g keys : gones x (flat_map (fun id => shut_if (g id) id) keys) = false.
Proof. induction keys as [|k keys IH]; cbn [flat_map]; [reflexivity|]. unfold gones in *. rewrite existsb_app, IH. destruct (g k); reflexivity. Qed.
Lemma touches_flat x g keys : touches x (flat_map (fun id => shut_if (g id) id) keys) = false.
Proof. induction keys as [|k keys IH]; cbn [flat_map]; [reflexivity|]. unfold touches in *. rewrite existsb_app, IH. destruct (g k); reflexivity. Qed.
Lemma open_live tr sv id : sinv tr sv -> live sv id = open tr id.
Proof.
  intros V. unfold live, open. rewrite (connected_get mg ka prior tr sv id V). pose proof (si_objs _ _ _ _ _ V id) as I. destruct (obj_get (sv_objs sv) id) as [o|]; auto. rewrite (oi_closed _ _ _ _ _ I). reflexivity.
Qed.
Lemma registered_mem tr sv id : sinv tr sv -> mem (sv_reg sv) id = registered tr id.
Proof. intros V. apply eq_true_iff_eq. rewrite mem_in. symmetry. apply (registered_in mg ka prior); auto. Qed.
Lemma step_tick tr sv now : sinv tr sv -> step_ok tr sv (OTick now).
Proof.
  intros V. unfold ProofServer.step_ok. cbn [sv_step]. pose proof V as [V1 V2 V3 V4 V5 V6 V7 V8 V9 V10 V11 V12 V13].
  destruct (tight_tick _ now _ V3 V4) as (t & keys & -> & T & TV & TS & FI). cbn [bind]. destruct FI as (ND & FK & FS).
  destruct (timeouts_spec keys (set_timer sv t) ND) as (sv' & E & (P1 & P2 & P3 & P4 & P5) & GO). rewrite E. cbn [set_timer sv_reg sv_auto sv_handlers sv_fs sv_objs sv_timer] in *.
  assert (EV : flat_map (fun id => shut_if (mem (sv_reg sv) id && live (set_timer sv t) id) id) keys = flat_map (fun id => shut_if (registered tr id && open tr id) id) keys).
  { apply flat_map_ext_in'. intros x _. rewrite (registered_mem tr sv x V). change (live (set_timer sv t) x) with (live sv x). rewrite (open_live tr sv x V). reflexivity. }
  rewrite EV. do 2 eexists. split; [reflexivity|]. split; [|exists keys; split; auto; split; auto].
  assert (OC : forall x, open tr x = true -> In x (connects (ops_of tr))) by (intros x; unfold open; rewrite andb_true_iff, connected_in; tauto).
  match goal with |- ProofServer.sinv _ _ _ (tr ++ [(?op, ?evs)]) _ => destruct (new_step mg ka prior tr sv op evs V) as (NW1 & NW2) end; [intros x; rewrite touches_flat; discriminate|].
  rewrite ops_snoc, connects_snoc, app_nil_r in NW1. rewrite ops_snoc, connects_snoc, asked_snoc, !app_nil_r in NW2.
  constructor; rewrite ?P1, ?P2, ?P3, ?P4, ?P5, ?ops_snoc, ?connects_snoc, ?asked_snoc, ?history_snoc, ?deadlines_snoc; cbn [fst]; rewrite ?app_nil_r; auto.
  - intros i. rewrite V2, handler_snoc. reflexivity.
  - congruence.
  - intros x. rewrite GO, (registered_mem tr sv x V). pose proof (V8 x) as I. destruct (obj_get (sv_objs sv) x) as [o|]; cbn [option_map]; [|destruct (existsb _ _ && _); auto].
    assert (CL : open tr x = negb (so_closed o)). { unfold open. rewrite (proj2 (connected_in tr x)) by apply I. rewrite (oi_closed _ _ _ _ _ I). reflexivity. }
    destruct (existsb (Z.eqb x) keys && registered tr x) eqn:B.
    + apply andb_true_iff in B. destruct B as (B1 & B2). eapply (oinv_step mg prior); eauto; try (cbn; auto; fail); [change (so_sess (shut o)) with (so_sess o); apply (sess_same mg prior); auto; apply touches_flat| |].
      * rewrite shuts_flat, B1, B2, CL. cbn [andb]. destruct (so_closed o); reflexivity.
      * rewrite gones_flat, orb_false_r. reflexivity.
    + apply (oinv_same mg prior); auto; try (cbn; auto; fail); [|apply gones_flat|apply touches_flat]. rewrite shuts_flat, andb_assoc, B. reflexivity.
  - intros x. rewrite is_gone_snoc, gones_flat, orb_false_r. auto.
  - intros x. rewrite is_gone_snoc, is_shut_snoc, gones_flat, orb_false_r, shuts_flat. intros [X|X]; [|auto]. apply orb_true_iff in X. destruct X as [X|X]; auto.
    apply andb_true_iff in X. destruct X as (_ & X). apply andb_true_iff in X. destruct X. auto.
Qed.

(** ** Broadcast *)
Lemma broadcast_spec tr e ids : forall sv, NoDup ids -> (forall id, In id ids -> exists o, obj_get (sv_objs sv) id = Some o /\ oinv tr id o) ->
  exists sv' blocks, broadcast_loop sv ids e = (sv', concat blocks) /\ only_objs sv sv' /\ Forall2 (fun id b => sending mg prior tr id e b) ids blocks /\
    (forall x, ~ In x ids -> obj_get (sv_objs sv') x = obj_get (sv_objs sv) x) /\
    (forall x o, In x ids -> obj_get (sv_objs sv) x = Some o -> exists o', obj_get (sv_objs sv') x = Some o' /\ ss_icc (so_sess o') = ss_icc (so_sess o) /\
       so_closed o' = so_closed o || shuts x (concat blocks) /\ so_full o' = so_full o /\ so_cb o' = so_cb o /\ so_ran o' = so_ran o /\
       ss_reqs (so_sess o') = ss_reqs (so_sess o) /\ next_ok tr x (so_sess o') (concat blocks)) /\
    (forall x, shuts x (concat blocks) = true -> In x ids) /\ (forall x, gones x (concat blocks) = false) /\ (forall f, fold_left (dl_event ka) (concat blocks) f = f) /\
    (forall x, touches x (concat blocks) = true -> In x ids) /\ (forall x tok m, ~ In (SvAnswer x tok m) (concat blocks)).
Proof.
  induction ids as [|id ids IH]; intros sv N OB; cbn [broadcast_loop].
  - exists sv, []. repeat split; auto; [intros ? ? []|discriminate|discriminate].
  - inversion N as [|? ? Ni N']; subst. destruct (OB id (or_introl eq_refl)) as (o & G & I). rewrite G.
    destruct (send_spec mg ka prior tr sv id o e I) as (o' & evs & -> & S & H1 & H2 & H3 & H4 & H5 & H6 & H7 & H8 & H9 & H10 & H11 & H12).
    destruct (IH (set_obj sv id o') N') as (sv' & blocks & -> & (P1 & P2 & P3 & P4 & P5) & F & O1 & O2 & SH & GO & DL & TO & AN).
    { intros x X. cbn [set_obj sv_objs]. rewrite obj_get_set. destruct (Z.eqb_spec id x); [subst; contradiction|]. apply OB. right; auto. }
    exists sv', (evs :: blocks). cbn [concat]. split; [reflexivity|]. split; [repeat split; auto|]. split; [constructor; auto|].
    assert (SA : forall x, shuts x (evs ++ concat blocks) = shuts x evs || shuts x (concat blocks)) by (intros; unfold shuts; apply existsb_app).
    assert (GA : forall x, gones x (evs ++ concat blocks) = gones x evs || gones x (concat blocks)) by (intros; unfold gones; apply existsb_app).
    assert (NS : shuts id (concat blocks) = false) by (destruct (shuts id (concat blocks)) eqn:X; auto; apply SH in X; contradiction).
    assert (TA : forall x, touches x (evs ++ concat blocks) = touches x evs || touches x (concat blocks)) by (intros; unfold touches; apply existsb_app).
    assert (NT : touches id (concat blocks) = false) by (destruct (touches id (concat blocks)) eqn:X; auto; apply TO in X; contradiction).
    assert (CA : forall x, cnt x (evs ++ concat blocks) = (cnt x evs + cnt x (concat blocks))%nat) by (intros; unfold cnt, sends; rewrite flat_map_app, filter_app, app_length; reflexivity).
    repeat split.
    + intros x X. cbn [In] in X. rewrite O1 by tauto. cbn [set_obj sv_objs]. rewrite obj_get_set. destruct (Z.eqb_spec id x); tauto.
    + intros x o1 [<-|X] Gx.
      * assert (o1 = o) by congruence. subst o1. exists o'. rewrite O1 by auto. cbn [set_obj sv_objs]. rewrite obj_get_set, Z.eqb_refl, SA, NS, orb_false_r. do 7 (split; [auto; fail|]). unfold next_ok in *. rewrite SA, NS, CA, (touch_cnt id (concat blocks)), orb_false_r, Nat.add_0_r by auto. auto.
      * assert (id <> x) by (intros ->; contradiction). destruct (O2 x o1 X) as (o2 & Q); [cbn [set_obj sv_objs]; rewrite obj_get_set; destruct (Z.eqb_spec id x); [contradiction|auto]|].
        exists o2. unfold next_ok in *. rewrite SA, (H6 x), CA, (touch_cnt x evs) by auto. exact Q.
    + intros x. rewrite SA, orb_true_iff. intros [X|X]; [|right; auto]. left. destruct (Z.eq_dec x id); auto. rewrite H6 in X by auto. discriminate.
    + intros x. rewrite GA, H7, GO. reflexivity.
    + intros f. rewrite fold_left_app, H8. auto.
    + intros x. rewrite TA, orb_true_iff. intros [X|X]; [|right; auto]. left. destruct (Z.eq_dec x id); auto. rewrite H11 in X by auto. discriminate.
    + intros x tok m X. apply in_app_iff in X. destruct X as [X|X]; [eapply H12; eauto|eapply AN; eauto].
Qed.
Lemma sends_count evs : zlen (filter is_send evs) = zlen (sends evs).
Proof. induction evs as [|ev evs IH]; auto. destruct ev; cbn [filter is_send sends flat_map app] in *; auto. rewrite !zlen_cons. unfold sends in IH. lia. Qed.
Lemma step_broadcast tr sv e : sinv tr sv -> step_ok tr sv (OBroadcast e).
Proof.
  intros V. unfold ProofServer.step_ok. cbn [sv_step]. pose proof V as [V1 V2 V3 V4 V5 V6 V7 V8 V9 V10 V11 V12 V13].
  destruct (broadcast_spec tr e (sv_reg sv) sv V9) as (sv' & blocks & -> & P & F & O1 & O2 & SH & GO & DL & TO & AN).
  { intros id I. apply V10 in I. apply (si_get mg ka prior tr sv id V). tauto. }
  rewrite sends_count. do 2 eexists. split; [reflexivity|]. split.
  2:{ exists (sv_reg sv), blocks. split; auto. split; auto. intros id. symmetry. apply (registered_in mg ka prior tr sv id V). }
  assert (SA : forall x n, shuts x (concat blocks ++ [SvCount n]) = shuts x (concat blocks)) by (intros; unfold shuts; rewrite existsb_app; cbn; apply orb_false_r).
  assert (TA : forall x n, touches x (concat blocks ++ [SvCount n]) = touches x (concat blocks)) by (intros; unfold touches; rewrite existsb_app; cbn; apply orb_false_r).
  assert (CA : forall x n, cnt x (concat blocks ++ [SvCount n]) = cnt x (concat blocks)) by (intros; unfold cnt, sends; rewrite flat_map_app, filter_app, app_length; cbn; lia).
  apply (objs_step mg ka prior tr sv); auto.
  - intros x. unfold gones in *. rewrite existsb_app, GO. reflexivity.
  - intros f. rewrite fold_left_app, DL. reflexivity.
  - intros x. rewrite SA. intros X. apply SH, V10 in X. tauto.
  - intros x. rewrite TA. intros X. apply TO, V10 in X. tauto.
  - intros x. destruct (in_dec Z.eq_dec x (sv_reg sv)) as [X|X].
    + destruct (obj_get (sv_objs sv) x) as [o|] eqn:G; [|apply V10 in X; pose proof (V8 x) as Y; rewrite G in Y; tauto].
      destruct (O2 x o X G) as (o' & -> & Q1 & Q2 & Q3 & Q4 & Q5 & Q6 & Q7). pose proof (V8 x) as I. rewrite G in I. eapply (oinv_step mg prior); eauto; try (cbn; auto; fail).
      * apply (sess_send mg prior tr x o); auto; [unfold next_ok in *; rewrite SA, CA; auto|]. intros y tok m Y. apply in_app_iff in Y. destruct Y as [Y|[Y|[]]]; [eapply AN; eauto|discriminate].
      * rewrite SA. auto.
      * rewrite Q5. unfold gones in *. rewrite existsb_app, GO. cbn. rewrite orb_false_r. reflexivity.
    + rewrite O1 by auto. apply (same_others mg ka prior); cbn; auto.
      * rewrite SA. destruct (shuts x (concat blocks)) eqn:Y; auto. apply SH in Y. contradiction.
      * unfold gones in *. rewrite existsb_app, GO. reflexivity.
      * rewrite TA. destruct (touches x (concat blocks)) eqn:Y; auto. apply TO in Y. contradiction.
Qed.
End Server.
