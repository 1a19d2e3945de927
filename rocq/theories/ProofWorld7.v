(** The whole process goroutine by goroutine: what histories keep. *)
From Verif Require Import Base LibBase Env EntTerm EntPlat Registry Message Codec Timer Session Multipart Server Host Overlap Fine World.
From Verif Require Import SpecGeo SpecEntity SpecMsg SpecStream SpecSession SpecMulti SpecTimer SpecServer SpecHost SpecOverlap SpecFine SpecWorld.
From Verif Require Import ProofStream ProofStream2 ProofMsg ProofMsg2 ProofServer4 ProofServer6 ProofOverlap ProofOverlap2 ProofHost ProofHost2 ProofHost3 ProofHost6 ProofFine ProofFine2 ProofFine5 ProofFine6 ProofFine7 ProofFine13 ProofWorld ProofWorld2 ProofWorld3 ProofWorld4 ProofWorld5 ProofWorld6.

Lemma recv_received merging ka evs s id m : reached merging ka evs s -> In (XRecv id m) evs -> received m.
Proof.
  intros (ops & G & R). revert id m. set (P := fun (evs : list fevent) (_ : Fine.fine) => forall id m, In (XRecv id m) evs -> received m). change (P ([] ++ evs) s).
  apply (frun_keeps P) with (ops := ops) (s := fine_init merging ka); auto; [|intros ? ? []].
  intros evs0 s0 e s' H D id m I. apply in_app_iff in I as [I|I]; [eauto|]. destruct D; try (cbn in I; intuition (try discriminate); fail).
  - destruct I as [I|[]]. injection I as _ <-. assumption.
  - exfalso. destruct I as [I|I]; [discriminate|]. apply in_app_iff in I as [I|I]; [destruct closes; [destruct I as [I|[]]; discriminate|contradiction]|].
    match goal with X : returned _ _ _ = _ |- _ => rename X into HR end. unfold returned in HR. cbn [fo_pc with_cfg] in HR. destruct (fo_pc o) as [| | | | | | |t0 p| | | | | | |]; try (injection HR as <- <-; contradiction). destruct (t0 =? tok); injection HR as <- <-; [destruct I as [I|[]]; discriminate|contradiction].
Qed.
Section World.
Variables (env : Env) (key : option Z) (merging : bool) (ka : Z) (f0 : fs).
Hypothesis KEY : key_ok env key.
Notation winv := (winv env key merging ka).
Section Uploads.
Variable O : Z -> packet -> Prop.
Hypothesis OK : forall id p, O id p -> packet_ok p.
Hypothesis AP : forall i j p q, i <> j -> O i p -> O j q -> same_upload (pk_up p) (pk_up q) = false.
Notation uinv := (uinv merging f0 O).
Lemma winv_auto evs w : winv evs w -> fi_auto (wo_fine w) = merging.
Proof. intros V. exact (tu_auto _ _ _ (ws_turning _ _ _ _ (reached_whole _ _ _ _ (wi_run _ _ _ _ _ _ V)))). Qed.
Lemma ustep evs w op w' e : winv evs w -> (forall id, uinv evs w id) -> wstep env key w op = Ok (w', e) -> winv (evs ++ e) w' ->
  (forall i p, In p (packets merging i (inside (evs ++ e))) -> O i p) -> forall id, uinv (evs ++ e) w' id.
Proof.
  intros V U E V' IN. assert (STILL : Ok (w, []) = Ok (w', e) -> forall i, uinv (evs ++ e) w' i) by (intros X; injection X as <- <-; rewrite app_nil_r; exact U).
  assert (ACT : forall w0 o, wo_fine w0 = wo_fine w -> wo_fs w0 = wo_fs w -> wo_up w0 = wo_up w -> act w0 o = Ok (w', e) -> (forall id m, o <> FRecv id m) -> (forall id b, o <> FStored id b) -> (forall id c, o <> FMerged id c) ->
    forall i, uinv (evs ++ e) w' i) by (intros w0 o E1 E2 E3 A N1 N2 N3; exact (u_act merging f0 O evs [] w w0 o w' e U E1 E2 E3 eq_refl A N1 N2 N3)).
  assert (QUIET : forall w1 pre, Ok (w1, pre) = Ok (w', e) -> wo_fine w1 = wo_fine w -> wo_fs w1 = wo_fs w -> wo_up w1 = wo_up w -> inside pre = [] -> forall i, uinv (evs ++ e) w' i).
  { intros w1 pre X E1 E2 E3 P. injection X as <- <-. apply (u_quiet merging f0 O evs pre w); auto. }
  destruct op as [o|id d|id r|id|id|id rnd wr|id|id k]; cbn [wstep] in E.
  - destruct o; auto; try (eapply (ACT w); eauto; discriminate). destruct (conn_get (wo_conns w) id); auto. eapply (ACT (set_wconn w id new_conn)); eauto; try reflexivity; discriminate.
  - destruct (conn_get (wo_conns w) id); auto. eapply QUIET; eauto; reflexivity.
  - assert (GOT : forall c x, pc_of (wo_fine w) id = Some GRecv -> got w id c x = Ok (w', e) -> forall i, uinv (evs ++ e) w' i).
    { intros c [sc b] PC G. unfold got in G. destruct sc as [m|err| |]; [|eapply (ACT (set_wconn w id _)); eauto; try reflexivity; discriminate|eapply QUIET; eauto; reflexivity|discriminate].
      destruct (act _ (FRecv id m)) as [[w1 ev]| |] eqn:A; try discriminate. cbn [bind] in G. injection G as <- <-. eapply u_recv; eauto using winv_auto.
      destruct (act_eq _ _ _ _ A) as (s1 & e' & E' & -> & _). cbn [set_wconn wo_fine] in E'. eapply (recv_received merging ka (inside (evs ++ map WFine e')) _ id m (wi_run _ _ _ _ _ _ V')).
      rewrite inside_app, inside_fine. apply in_app_iff. right. cbn [fstep] in E'. unfold pc_of in PC. destruct (fobj_get (fi_objs (wo_fine w)) id) as [o|]; [|discriminate]. injection PC as PC. rewrite PC in E'.
      destruct (on_message (fi_auto (wo_fine w)) m); try discriminate. cbn [bind] in E'. injection E' as <- <-. left. reflexivity. }
    unfold receive in E. destruct (pc_of (wo_fine w) id) as [p|] eqn:PC; auto. destruct p; auto. destruct (conn_get (wo_conns w) id) as [c|]; auto. destruct (cn_at c); auto.
    + eapply GOT; eauto.
    + destruct r as [k|er].
      * destruct (firstn _ (cn_in c)) as [|d0 d].
        -- destruct (is_closed (wo_fine w) id); auto. eapply (ACT (set_wconn w id _)); eauto; try reflexivity; discriminate.
        -- cbv zeta in E. destruct (65535 <? _); [|eapply GOT; eauto]. eapply (ACT (set_wconn w id _)); eauto; try reflexivity; discriminate.
      * destruct (act _ (FFail id)) as [[w1 ev]| |] eqn:A; try discriminate. cbn [bind] in E. injection E as <- <-.
        eapply (u_act merging f0 O evs [WReadErr id] w (set_wconn w id _) (FFail id)); eauto; try reflexivity; discriminate.
  - eapply u_file; eauto.
  - unfold wtake in E. destruct (conn_get (wo_conns w) id) as [c|]; auto. destruct (cn_sending c); auto. destruct (cn_flight c); auto. destruct (cn_queue c) as [|m q]; auto. cbv zeta in E.
    unfold queue_now in E. cbn [set_wconn wo_conns] in E. rewrite conn_get_set, Z.eqb_refl in E. cbn [cn_queue with_send frun fstep] in E. destruct (fobj_get (fi_objs (wo_fine w)) id) as [o|] eqn:Go; cbn [bind app map] in E.
    + injection E as <- <-. rewrite app_nil_r. intros i. apply (u_same merging f0 O evs w); auto. cbn [wo_fine]. unfold pc_of. rewrite set_fobj_get. destruct (Z.eqb_spec id i) as [<-|]; [rewrite Go|]; reflexivity.
    + eapply QUIET; eauto; reflexivity.
  - unfold wwrite in E. destruct (conn_get (wo_conns w) id) as [c|]; auto. destruct (cn_flight c) as [m|]; auto. destruct (codec_send _ _ _ _ _); try discriminate.
    + eapply QUIET; eauto; reflexivity.
    + destruct (act _ (FShut id)) as [[w1 ev]| |] eqn:A; try discriminate. cbn [bind] in E. injection E as <- <-.
      eapply (u_act merging f0 O evs [WSendErr id m] w (set_wconn w id _) (FShut id)); eauto; try reflexivity; discriminate.
  - eapply QUIET; eauto; unfold wquit; destruct (conn_get (wo_conns w) id) as [c|]; auto; destruct (cn_flight c); auto; destruct (is_closed _ _); auto.
  - destruct (conn_get (wo_conns w) id); auto. eapply QUIET; eauto; reflexivity.
Qed.
Lemma urun ops : forall evs w w' e, winv evs w -> wlegal ops -> (forall id, uinv evs w id) -> wrun env key w ops = Ok (w', e) ->
  (forall i p, In p (packets merging i (inside (evs ++ e))) -> O i p) -> forall id, uinv (evs ++ e) w' id.
Proof.
  induction ops as [|op ops IH]; intros evs w w' e V L U E IN; cbn [wrun] in E.
  - injection E as <- <-. rewrite app_nil_r. exact U.
  - inversion L; subst. assert (L1 : wlegal [op]) by (constructor; auto). destruct (wstep env key w op) as [[w1 e1]| |] eqn:E1; try discriminate. cbn [bind] in E. destruct (wrun env key w1 ops) as [[w2 e2]| |] eqn:E2; try discriminate. cbn [bind] in E. injection E as <- <-.
    destruct (wstep_ok env key merging ka KEY evs w op V L1) as [(w1' & e1' & X & V1)|(X & _)]; rewrite E1 in X; [|discriminate]. injection X as <- <-. rewrite app_assoc in *.
    eapply (IH (evs ++ e1)); eauto. eapply ustep; eauto. intros i p I. apply IN. rewrite inside_app, packets_app. apply in_app_iff. auto.
Qed.
End Uploads.
Lemma uploads_inv ops w evs (id : Z) : wlegal ops -> wrun env key (world_init merging ka f0) ops = Ok (w, evs) -> fs_ok f0 -> separate merging (inside evs) ->
  exists O : Z -> packet -> Prop, (forall i p, O i p -> packet_ok p) /\ (forall i j p q, i <> j -> O i p -> O j q -> same_upload (pk_up p) (pk_up q) = false) /\ uinv merging f0 O evs w id.
Proof.
  intros L R FO SEP. set (O := fun (i : Z) (p : packet) => In p (packets merging i (inside evs))).
  assert (V : winv evs w). { destruct (wrun_ok env key merging ka KEY ops [] _ (init_inv env key merging ka f0) L) as [(w' & e & E & V)|(E & _)]; rewrite R in E; [|discriminate]. injection E as <- <-. exact V. }
  assert (OK : forall i p, O i p -> packet_ok p).
  { intros i p I. unfold O, packets in I. apply in_flat_map in I as (m & I & P). assert (RM : received m).
    { unfold got_by in I. apply in_flat_map in I as (ev & I & X). destruct ev; try contradiction. destruct (_ =? _); [|contradiction]. destruct X as [<-|[]]. eapply recv_received; [apply V|exact I]. }
    destruct (part_of merging m) as [[[mf sq] data]|] eqn:PO; [|contradiction]. destruct P as [<-|[]]. destruct RM as (R1 & R2 & _ & R4 & _ & R6). unfold part_of in PO. destruct (h_packet (m_hdr m)) as [[sum s]|]; [|discriminate].
    destruct (m_body m) as [| |b]; try discriminate. destruct b; try discriminate. destruct merging; [|discriminate]. injection PO as <- <- <-. destruct R6 as (_ & R6 & _). split; cbn [pk_up pk_seq]; [|apply R4].
    unfold mpf_ok. cbn [mp_icc mp_msgid mp_tag mp_sum]. unfold is_u32 in *. repeat split; try lia; try apply R1; try apply R4; try apply R6. }
  assert (AP : forall i j p q, i <> j -> O i p -> O j q -> same_upload (pk_up p) (pk_up q) = false) by (intros i j p q N; apply SEP; exact N).
  exists O. split; [exact OK|]. split; [exact AP|]. apply (urun O OK AP ops [] (world_init merging ka f0) w evs); auto.
  - apply init_inv.
  - intros i. exists [], f0, []. split; [exact FO|]. split; [constructor|]. left. cbn. split; [reflexivity|]. split; [reflexivity|]. split; [apply agree_refl|]. left. auto.
Qed.
Lemma uploads evs id : occurs env key merging ka f0 evs -> fs_ok f0 -> separate merging (inside evs) ->
  exists f' os, in_turn f0 (packets merging id (inside evs)) f' os /\ is_prefix (results id (inside evs)) (flat_map (shown id) os).
Proof.
  intros (_ & ops & w & L & R) FO SEP. destruct (uploads_inv ops w evs id L R FO SEP) as (O & OK & AP & U). exact (u_prefix merging f0 O OK AP evs w id U).
Qed.
End World.
