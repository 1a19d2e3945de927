(** The whole process goroutine by goroutine: histories; what is received, what is written, what can crash. *)
From Verif Require Import Base LibBase Env EntTerm EntPlat Registry Message Codec Timer Session Multipart Server Host Overlap Fine World.
From Verif Require Import SpecGeo SpecEntity SpecMsg SpecStream SpecSession SpecMulti SpecTimer SpecServer SpecHost SpecFine SpecWorld.
From Verif Require Import ProofStream ProofStream2 ProofMsg ProofMsg2 ProofServer4 ProofServer6 ProofHost ProofHost2 ProofHost3 ProofFine ProofFine2 ProofFine6 ProofFine13 ProofWorld ProofWorld2 ProofWorld3 ProofWorld4.

Section World.
Variables (env : Env) (key : option Z) (merging : bool) (ka : Z).
Hypothesis KEY : key_ok env key.
Notation winv := (winv env key merging ka).
Notation recv_ok := (recv_ok env key).
Notation send_but := (send_but env).
Notation send_ok := (send_ok env).
Notation went := (went env key merging ka).

Lemma send_quiet evs w id c c' pre : winv evs w -> conn_get (wo_conns w) id = Some c -> inside pre = [] -> (forall i, came i pre = []) -> (forall i, i <> id -> wrote i pre = []) ->
  cn_at c' = cn_at c -> cn_buf c' = cn_buf c -> cn_in c' = cn_in c -> (forall o, fobj_get (fi_objs (wo_fine w)) id = Some o -> send_ok id (evs ++ pre) c' o) -> winv (evs ++ pre) (set_wconn w id c').
Proof.
  intros V G I C W A1 A2 A3 S. apply quiet with (w := w); auto.
  - intros i X. apply (in_flat_map) in I || idtac. assert (Y : In (XFail i) (inside pre)) by (unfold inside; apply in_flat_map; exists (WFine (XFail i)); split; [exact X|left; reflexivity]). rewrite I in Y. exact Y.
  - intros i. cbn [set_wconn wo_conns]. rewrite conn_get_set. destruct (Z.eqb_spec id i) as [<-|N].
    + destruct (both _ _ _ _ _ _ _ _ V G) as (o & Go & R & _). rewrite Go. split; [|apply S; auto]. eapply recv_more; eauto; rewrite ?C; [constructor|rewrite app_nil_r; auto].
    + pose proof (wi_conn _ _ _ _ _ _ V i) as X. destruct (conn_get (wo_conns w) i) as [cx|], (fobj_get _ i) as [ox|]; auto.
      * destruct X as (R & S0). split; [eapply recv_more; eauto; rewrite ?C; [constructor|rewrite app_nil_r; auto]|eapply send_same; eauto].
      * rewrite came_app, wrote_app, C, W, !app_nil_r by auto. exact X.
Qed.
Lemma take_ok evs w id : winv evs w -> went evs w (wtake w id).
Proof.
  intros V. unfold wtake. destruct (conn_get (wo_conns w) id) as [c|] eqn:G; [|apply still; auto].
  destruct (cn_sending c) eqn:SE; [|apply still; auto]. destruct (cn_flight c) eqn:FL; [apply still; auto|]. destruct (cn_queue c) as [|m q] eqn:QU; [apply still; auto|]. cbv zeta.
  destruct (both _ _ _ _ _ _ _ _ V G) as (o & Go & R & S). unfold queue_now. cbn [set_wconn wo_conns]. rewrite conn_get_set, Z.eqb_refl. cbn [cn_queue with_send frun fstep]. rewrite Go. cbn [bind app].
  eexists _, _. split; [reflexivity|]. cbn [map]. rewrite app_nil_r. destruct V as [V1 V2 V3]. constructor; auto; cbn [wo_fine wo_conns].
  - pose proof (reached_more merging ka _ _ [FQueue id (length q =? queue_size)%nat] (set_fobj (wo_fine w) id (Fobj (fo_cfg o) (fo_pc o) (fo_closed o) (length q =? queue_size)%nat (fo_cb o) (fo_close o))) [] V1) as X.
    rewrite app_nil_r in X. apply X; [repeat constructor|]. cbn [frun fstep]. rewrite Go. reflexivity.
  - intros i. rewrite conn_get_set, set_fobj_get. specialize (V2 i). destruct (Z.eqb_spec id i) as [<-|N]; [|exact V2]. split.
    + destruct R as [B (past & rest & A & P & M)]. constructor; auto. exists past, rest. auto.
    + destruct S as [(ws & lost & S1 & S1' & S1'' & S1l) S2 S3 S4 S5]. constructor; auto.
      * exists ws, lost. rewrite S1. unfold in_flight in *. cbn [with_send cn_flight cn_queue]. rewrite FL, QU. rewrite S1'' by auto. repeat split; auto.
      * cbn. discriminate.
      * cbn [with_send cn_queue]. rewrite QU in S3. cbn in S3. lia.
Qed.
Lemma write_ok evs w id rnd wr : winv evs w -> went evs w (wwrite env w id rnd wr) \/ (wwrite env w id rnd wr = Panic /\ exists m, In m (handed id (inside evs)) /\ ~ tame env m).
Proof.
  intros V. unfold wwrite. destruct (conn_get (wo_conns w) id) as [c|] eqn:G; [|left; apply still; auto]. destruct (cn_flight c) as [m|] eqn:FL; [|left; apply still; auto].
  destruct (both _ _ _ _ _ _ _ _ V G) as (o & Go & R & S). pose proof S as [(ws & lost & S1 & F1 & F2 & F3) S2 S3 S4 S5].
  assert (IN : In m (handed id (inside evs))). { rewrite S1. unfold in_flight. rewrite FL. rewrite !in_app_iff. cbn. auto. }
  assert (SN : cn_sending c = true). { destruct (cn_sending c) eqn:Q; auto. destruct (S2 eq_refl). congruence. }
  assert (PM : plain_msg m) by (rewrite Forall_forall in S5; auto).
  assert (FAIL : went evs w (do (w1, evs0) <- act (set_wconn w id (with_send c (cn_queue c) None false)) (FShut id) ; Ok (w1, WSendErr id m :: evs0))).
  { assert (SI : silent [WSendErr id m]) by (split; [reflexivity|intros; split; reflexivity]).
    destruct (act_inv env key merging ka evs [WSendErr id m] w (set_wconn w id (with_send c (cn_queue c) None false)) (FShut id) V eq_refl Logic.I ltac:(discriminate) ltac:(discriminate) SI) as (w' & e & AC & V' & _).
    - apply why_more; [intros ? [X|[]]; discriminate|apply V].
    - discriminate.
    - apply (replaced env key merging ka); auto; [intros; split; discriminate|]. unfold fit. rewrite Go. split.
      + constructor; [|cbn; auto|auto..]. exists ws, [m]. split; [|split; [auto|split; [cbn; discriminate|auto]]]. rewrite S1, (F2 SN). unfold in_flight. rewrite FL. reflexivity.
      + intros e s1 o' E AC _. destruct (fstep_events _ _ _ _ id E) as (G1 & F & _).
        assert (G0 : got_by id e = []) by (apply G1; discriminate). assert (F0 : fails id e = false) by (apply F; discriminate). eapply recv_keep; eauto. eapply recv_idle; eauto.
    - rewrite AC. cbn [bind]. eexists _, _. split; [reflexivity|]. exact V'. }
  rewrite send_plain_msg by auto. unfold codec_send. destruct (msg_encode env None 0 m) as [[d m']|e|] eqn:E; cbn [bind].
  - destruct wr as [we|]; [left; exact FAIL|].
    + left. eexists _, _. split; [reflexivity|]. eapply send_quiet; eauto.
      * intros x N. cbn. destruct (Z.eqb_spec id x); [congruence|reflexivity].
      * intros o0 Go0. rewrite Go in Go0. injection Go0 as <-. constructor; auto.
        -- exists (ws ++ [m]), []. rewrite inside_app, wrote_app. cbn [inside wrote flat_map]. rewrite Z.eqb_refl, !app_nil_r. cbn [app]. split; [|split; [apply Forall2_app; auto; constructor; [exists m'; auto|constructor]|split; [auto|cbn; lia]]].
           rewrite S1, (F2 SN). unfold in_flight. rewrite FL. cbn [with_send cn_flight cn_queue]. rewrite <- !app_assoc. reflexivity.
        -- cbn [with_send cn_sending]. congruence.
        -- rewrite inside_app. cbn [inside flat_map]. rewrite app_nil_r. exact S5.
  - left. exact FAIL.
  - right. split; auto. exists m. split; [exact IN|]. unfold tame. rewrite E. congruence.
Qed.
Lemma quit_ok evs w id : winv evs w -> winv evs (wquit w id).
Proof.
  intros V. unfold wquit. destruct (conn_get (wo_conns w) id) as [c|] eqn:G; [|auto]. destruct (cn_flight c) eqn:FL; [auto|]. destruct (is_closed (wo_fine w) id) eqn:CL; [|auto].
  rewrite <- (app_nil_r evs). eapply send_quiet; eauto. intros o Go. destruct (both _ _ _ _ _ _ _ _ V G) as (o0 & Go0 & R & S). rewrite Go in Go0. injection Go0 as <-. rewrite app_nil_r.
  destruct S as [(ws & lost & S1 & S1' & S1'' & S1l) S2 S3 S4 S5]. constructor; auto.
  - exists ws, lost. rewrite S1. unfold in_flight. cbn [with_send cn_flight cn_queue cn_sending]. unfold in_flight in S1l. rewrite FL in *. split; auto. split; auto. split; [discriminate|auto].
  - cbn. intros _. split; auto. left. unfold is_closed in CL. rewrite Go in CL. exact CL.
Qed.
(** What can crash *)
Definition crash (evs : list wevent) : Prop := (exists id, snd (says env key (came id evs)) = GotPanic) \/ (exists id m, In m (handed id (inside evs)) /\ ~ tame env m).
Lemma wstep_ok evs w op : winv evs w -> wlegal [op] -> went evs w (wstep env key w op) \/ (wstep env key w op = Panic /\ crash evs).
Proof.
  intros V L. assert (PA : forall o, good_op o -> (forall id b, o <> FQueue id b) -> (forall id, o <> FConnect id) -> (forall id m, o <> FRecv id m) -> (forall id, o <> FFail id) -> went evs w (act w o)).
  { intros o G N1 N2 N3 N4. destruct (plain_act env key merging ka evs w o V G N1 N2 N3 N4) as (w' & e & A & B & _). exists w', (map WFine e). auto. }
  destruct op as [o|id d|id r|id|id|id rnd wr|id|id k]; cbn [wstep].
  - left. destruct o; try (apply still; auto; fail); try (apply PA; [exact Logic.I|discriminate..]; fail).
    destruct (conn_get (wo_conns w) id) eqn:G; [apply still; auto|]. destruct (connect_act env key merging ka evs w id V G) as (w' & e & A & B & _). exists w', (map WFine e). auto.
  - left. destruct (conn_get (wo_conns w) id) as [c|] eqn:G; [|apply still; auto]. eexists _, _. split; [reflexivity|]. apply quiet with (w := w); auto.
    + intros i [X|[]]. discriminate.
    + intros i. cbn [set_wconn wo_conns]. rewrite conn_get_set. assert (CI : came i [WIn id d] = if id =? i then d else []) by (cbn; destruct (id =? i); rewrite ?app_nil_r; auto).
      destruct (Z.eqb_spec id i) as [EI|N]; [subst i|].
      * destruct (both _ _ _ _ _ _ _ _ V G) as (o & Go & R & S). rewrite Go. split; [|eapply send_same; eauto]. eapply recv_more; eauto; rewrite CI; auto. inversion L; auto.
      * pose proof (wi_conn _ _ _ _ _ _ V i) as X. destruct (conn_get (wo_conns w) i) as [cx|], (fobj_get _ i) as [ox|]; auto.
        -- destruct X as (R & S0). split; [eapply recv_more; eauto; rewrite ?CI; [constructor|rewrite app_nil_r; auto]|eapply send_same; eauto].
        -- rewrite came_app, wrote_app, CI. cbn [wrote flat_map]. rewrite !app_nil_r by auto. exact X.
  - destruct (turn_ok env key merging ka KEY evs w id r V) as [A|(A & B)]; [left; exact A|right; split; [exact A|left; eauto]].
  - left. apply file_ok; auto.
  - left. apply take_ok; auto.
  - destruct (write_ok evs w id rnd wr V) as [A|(A & m & B)]; [left; exact A|right; split; [exact A|right; eauto]].
  - left. eexists _, _. split; [reflexivity|]. rewrite app_nil_r. apply quit_ok; auto.
  - left. destruct (conn_get (wo_conns w) id) as [c|] eqn:G; [|apply still; auto]. eexists _, _. split; [reflexivity|]. eapply send_quiet; eauto. intros o Go.
    destruct (both _ _ _ _ _ _ _ _ V G) as (o0 & Go0 & R & S). rewrite Go in Go0. injection Go0 as <-. eapply send_same; eauto.
Qed.
Lemma init_inv f : winv [] (world_init merging ka f).
Proof.
  constructor.
  - exists []. split; [constructor|reflexivity].
  - intros id. cbn. auto.
  - intros id a b E. destruct a; discriminate.
Qed.
Lemma wrun_ok ops : forall evs w, winv evs w -> wlegal ops ->
  (exists w' e, wrun env key w ops = Ok (w', e) /\ winv (evs ++ e) w') \/
  (wrun env key w ops = Panic /\ exists pre op post w1 e1, ops = pre ++ op :: post /\ wrun env key w pre = Ok (w1, e1) /\ wstep env key w1 op = Panic /\ crash (evs ++ e1)).
Proof.
  induction ops as [|op ops IH]; intros evs w V L.
  - left. exists w, []. cbn. rewrite app_nil_r. auto.
  - assert (L1 : wlegal [op] /\ wlegal ops) by (inversion L; subst; split; [constructor; auto|auto]). destruct L1 as (L1 & L2). cbn [wrun].
    destruct (wstep_ok evs w op V L1) as [(w1 & e1 & E & V1)|(E & C)]; rewrite E; cbn [bind].
    + destruct (IH _ _ V1 L2) as [(w2 & e2 & E2 & V2)|(E2 & pre & o & post & w2 & e2 & A & B & C & D)]; rewrite E2; cbn [bind].
      * left. exists w2, (e1 ++ e2). rewrite app_assoc. auto.
      * right. split; auto. exists (op :: pre), o, post, w2, (e1 ++ e2). subst ops. split; auto. cbn [wrun]. rewrite E. cbn [bind]. rewrite B. cbn [bind]. rewrite app_assoc. auto.
    + right. split; auto. exists [], op, ops, w, []. rewrite app_nil_r. cbn. auto.
Qed.
Lemma occurs_inv f evs : occurs env key merging ka f evs -> exists w, winv evs w.
Proof.
  intros (_ & ops & w & L & R). destruct (wrun_ok ops [] _ (init_inv f) L) as [(w' & e & E & V)|(E & _)]; rewrite R in E; [|discriminate]. injection E as <- <-. eauto.
Qed.
End World.
