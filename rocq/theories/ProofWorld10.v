(** The whole process goroutine by goroutine: it comes to rest, and then everything is done. *)
From Verif Require Import Base LibBase Env EntTerm EntPlat Registry Message Codec Timer Session Multipart Server Host Overlap Fine World.
From Verif Require Import SpecGeo SpecEntity SpecMsg SpecStream SpecSession SpecMulti SpecTimer SpecServer SpecHost SpecOverlap SpecFine SpecWorld.
From Verif Require Import ProofStream ProofStream2 ProofMsg ProofMsg2 ProofServer4 ProofServer6 ProofHost ProofHost2 ProofHost3 ProofFine ProofFine2 ProofFine5 ProofFine6 ProofFine7 ProofFine12 ProofFine13 ProofWorld ProofWorld2 ProofWorld3 ProofWorld4 ProofWorld5 ProofWorld6 ProofWorld7 ProofWorld8 ProofWorld9.

Section World.
Variables (env : Env) (key : option Z) (merging : bool) (ka : Z) (f0 : fs).
Hypothesis KEY : key_ok env key.
(** The steps that may be possible *)
Definition wcandidates (w : world) : list wop :=
  map WDo (candidates (wo_fine w)) ++ flat_map (fun id => [WTurn id (Avail 1); WFile id; WTake id; WWrite id 0 None]) (ids_of (wo_conns w)).
Definition no_wmove (w : world) : Prop := forall op, In op (wcandidates w) -> wstep env key w op = Ok (w, []).
Lemma wcandidates_self w op : In op (wcandidates w) -> wself op = true.
Proof.
  intros I. apply in_app_iff in I as [I|I].
  - apply in_map_iff in I as (o & <- & I). exact (candidates_own _ _ I).
  - apply in_flat_map in I as (id & _ & I). repeat destruct I as [<-|I]; try reflexivity. contradiction.
Qed.
Lemma no_less w e : ~ less w w e. Proof. intros (A & B). lia. Qed.
Lemma rest_conn evs w id c : winv env key merging ka evs w -> no_wmove w -> conn_get (wo_conns w) id = Some c -> idle_turn w id /\ idle_file w id /\ idle_take w id /\ idle_write w id.
Proof.
  intros V R G. assert (C : forall op, In op [WTurn id (Avail 1); WFile id; WTake id; WWrite id 0 None] -> wstep env key w op = Ok (w, [])).
  { intros op I. apply R. apply in_app_iff. right. apply in_flat_map. exists id. split; [eapply conn_in; eauto|exact I]. }
  split; [|split; [|split]].
  - destruct (turn_less env key w id 1 w [] (C (WTurn id (Avail 1)) ltac:(cbn; auto))) as [(_ & _ & X)|X]; [exact X|destruct (no_less _ _ X)].
  - destruct (file_less env key merging ka evs w id w [] V (C (WFile id) ltac:(cbn; auto))) as [(_ & _ & X)|X]; [exact X|destruct (no_less _ _ X)].
  - destruct (take_less w id w [] (C (WTake id) ltac:(cbn; auto))) as [(_ & _ & X)|X]; [exact X|destruct (no_less _ _ X)].
  - destruct (write_less env w id 0 None w [] (C (WWrite id 0 None) ltac:(cbn; auto))) as [(_ & _ & X)|X]; [exact X|destruct (no_less _ _ X)].
Qed.
Lemma rest_fine evs w : winv env key merging ka evs w -> no_wmove w -> no_move (wo_fine w).
Proof.
  intros V R op I. assert (IDLE : forall id, idle_file w id).
  { intros id m. unfold pc_of. pose proof (wi_conn _ _ _ _ _ _ V id) as C. destruct (fobj_get (fi_objs (wo_fine w)) id) as [o|] eqn:Go; [|split; discriminate]. destruct (conn_get (wo_conns w) id) as [c|] eqn:G; [|contradiction].
    destruct (rest_conn _ _ _ _ V R G) as (_ & X & _). specialize (X m). unfold pc_of in X. rewrite Go in X. exact X. }
  assert (B : by_itself op = true) by (eapply candidates_own; eauto). specialize (R (WDo op) ltac:(apply in_app_iff; left; apply in_map; exact I)). cbn [wstep] in R.
  assert (A : act w op = Ok (w, []) \/ (exists id b, op = FStored id b) \/ (exists id c, op = FMerged id c)) by (destruct op; eauto; discriminate B).
  destruct A as [A|[(id & b & ->)|(id & c & ->)]].
  - apply act_load in A as (s1 & e & E & X & _). destruct e; [|discriminate X]. eauto.
  - exists (wo_fine w). specialize (IDLE id). unfold idle_file, pc_of in IDLE. cbn [fstep]. destruct (fobj_get (fi_objs (wo_fine w)) id) as [o|]; [|reflexivity]. destruct (fo_pc o) as [| | | | |m| | | | | | | | |]; try reflexivity. destruct (IDLE m) as (X & _). contradiction.
  - exists (wo_fine w). specialize (IDLE id). unfold idle_file, pc_of in IDLE. cbn [fstep]. destruct (fobj_get (fi_objs (wo_fine w)) id) as [o|]; [|reflexivity]. destruct (fo_pc o) as [| | | | | | | |m| | | | | |]; try reflexivity. destruct (IDLE m) as (_ & X). contradiction.
Qed.
Lemma fail_inside id evs : In (WFine (XFail id)) evs -> In (XFail id) (inside evs).
Proof. intros I. apply in_flat_map. exists (WFine (XFail id)). split; [exact I|left; reflexivity]. Qed.
Lemma rest_completed ops w evs : wlegal ops -> wrun env key (world_init merging ka f0) ops = Ok (w, evs) -> no_wmove w -> completed env key merging f0 evs.
Proof.
  intros L RUN R. assert (V : winv env key merging ka evs w). { destruct (wrun_ok env key merging ka KEY ops [] _ (init_inv env key merging ka f0) L) as [(w' & e & E & V)|(E & _)]; rewrite RUN in E; [|discriminate]. injection E as <- <-. exact V. }
  pose proof (rest_fine _ _ V R) as NM. pose proof (reached_whole _ _ _ _ (wi_run _ _ _ _ _ _ V)) as WS. pose proof (rest_settled _ _ _ _ WS NM) as SE.
  assert (PC : forall id o, fobj_get (fi_objs (wo_fine w)) id = Some o -> fo_pc o = GRecv \/ fo_pc o = GEnd).
  { intros id o Go. pose proof (rest_pc _ _ _ NM Go) as X. destruct (fo_pc o) as [| | | | | | |t p| | | | | | |] eqn:P; try contradiction; auto. destruct (rest_call _ _ _ _ NM (ke_send _ _ (ws_kept _ _ _ _ WS) _ _ _ _ Go P)). }
  assert (SH : forall id o, fobj_get (fi_objs (wo_fine w)) id = Some o -> fo_closed o = true <-> In (XShut id) (inside evs)).
  { intros id o Go. pose proof (cg_obj _ _ (ws_closing _ _ _ _ WS) id) as X. unfold obj_view in X. rewrite Go in X. destruct X as (_ & X & _). rewrite X. unfold shut_in. rewrite existsb_exists. split.
    - intros (ev & I & B). destruct ev; try discriminate. apply Z.eqb_eq in B. subst. exact I.
    - intros I. exists (XShut id). split; [exact I|apply Z.eqb_refl]. }
  constructor.
  - exact SE.
  - intros id I. pose proof (cg_obj _ _ (ws_closing _ _ _ _ WS) id) as X. assert (A : accepted (inside evs) id = true) by (apply existsb_exists; exists (XConnect id); split; [exact I|apply Z.eqb_refl]). unfold obj_view in X.
    destruct (fobj_get (fi_objs (wo_fine w)) id) as [o|] eqn:Go; [|destruct X; congruence]. clear X. pose proof (wi_conn _ _ _ _ _ _ V id) as C. rewrite Go in C. destruct (conn_get (wo_conns w) id) as [c|] eqn:G; [|contradiction].
    destruct C as ([B (past & rest & A1 & A2 & M)] & _). destruct (rest_conn _ _ _ _ V R G) as (IT & _). destruct (PC _ _ Go) as [P|P].
    + destruct (IT c ltac:(unfold pc_of; rewrite Go, P; reflexivity) G) as [AT|(AT & IN & CL)]; rewrite AT in M.
      * destruct M as (M & _). congruence.
      * right. split; [intros SI; apply (SH _ _ Go) in SI; unfold is_closed in CL; rewrite Go in CL; congruence|]. destruct M as (-> & IC & _). rewrite IN, app_nil_r in A1. rewrite A1, A2, (says_open env key _ IC). cbn [fst snd]. rewrite app_nil_r. reflexivity.
    + left. destruct (cn_at c); [destruct M; contradiction|destruct M as (_ & _ & M); congruence|]. apply fail_inside, M.
  - intros id. pose proof (wi_conn _ _ _ _ _ _ V id) as C. destruct (conn_get (wo_conns w) id) as [c|] eqn:G.
    + destruct (fobj_get (fi_objs (wo_fine w)) id) as [o|] eqn:Go; [|contradiction]. destruct C as (_ & [(ws & lost & S1 & S2 & S3 & _) S4 _ _ _]). destruct (rest_conn _ _ _ _ V R G) as (_ & _ & IT & IW). destruct (cn_sending c) eqn:SD.
      * right. rewrite S1, (S3 eq_refl), (IT c G SD (IW c G)). unfold in_flight. rewrite (IW c G), !app_nil_r. exact S2.
      * left. destruct (S4 eq_refl) as ([X|[]] & _). apply (SH _ _ Go). exact X.
    + destruct (fobj_get _ id); [contradiction|]. destruct C as (_ & -> & _ & ->). right. constructor.
  - intros FO SEP id. destruct (uploads_inv env key merging ka f0 KEY ops w evs id L RUN FO SEP) as (O & OK & AP & ps0 & g0 & out0 & F & T & U).
    assert (PH : phase (pc_of (wo_fine w) id) = 0%nat). { unfold pc_of. destruct (fobj_get (fi_objs (wo_fine w)) id) as [o|] eqn:Go; [|reflexivity]. destruct (PC _ _ Go) as [-> | ->]; reflexivity. }
    rewrite PH in U. destruct U as [(-> & _ & _ & [(_ & U)|(X & _)])|(p & k & g & _ & _ & _ & _ & _ & _ & _ & [(X & _)|(X & _)])]; try discriminate. exists g0, out0. auto.
Qed.
(** It can be decided whether something moves. *)
Lemma wmoves_or_not evs w : winv env key merging ka evs w -> no_wmove w \/ exists op, wself op = true /\ (wstep env key w op = Panic \/ exists w' e, wstep env key w op = Ok (w', e) /\ less w w' e).
Proof.
  intros V. assert (S : forall op, In op (wcandidates w) -> wself op = true) by (intro; apply wcandidates_self). unfold no_wmove. revert S. generalize (wcandidates w). induction l as [|op l IH]; intros S; [left; intros ? []|].
  destruct IH as [IH|IH]; [intros; apply S; right; auto| |right; exact IH]. assert (So : wself op = true) by (apply S; left; reflexivity).
  destruct (wstep_ok env key merging ka KEY evs w op V (self_legal _ So)) as [(w1 & e1 & E & _)|(E & _)]; [|right; exists op; auto].
  destruct (self_less env key merging ka evs w op w1 e1 V So E) as [(-> & ->)|X]; [|right; exists op; split; eauto]. left. intros o [<-|I]; auto.
Qed.
Lemma wrun_app a : forall b w w1 e1, wrun env key w a = Ok (w1, e1) -> wrun env key w (a ++ b) = do (w2, e2) <- wrun env key w1 b ; Ok (w2, e1 ++ e2).
Proof.
  induction a as [|op a IH]; intros b w w1 e1 R; cbn [wrun app] in *.
  - injection R as <- <-. destruct (wrun env key w b) as [[w2 e2]| |]; reflexivity.
  - destruct (wstep env key w op) as [[w0 e0]| |]; try discriminate. cbn [bind] in *. destruct (wrun env key w0 a) as [[w3 e3]| |] eqn:E; try discriminate. cbn [bind] in R. injection R as <- <-.
    rewrite (IH b _ _ _ E). destruct (wrun env key w3 b) as [[w2 e2]| |]; cbn [bind]; try reflexivity. rewrite app_assoc. reflexivity.
Qed.
Lemma legal_self more : forallb wself more = true -> wlegal more.
Proof. intros B. apply Forall_forall. intros op I. rewrite forallb_forall in B. specialize (B op I). destruct op; auto. discriminate. Qed.
Lemma can_complete_from : forall n m ops w evs, (load1 w <= n)%nat -> (load2 w <= m)%nat -> wlegal ops -> wrun env key (world_init merging ka f0) ops = Ok (w, evs) ->
  exists more, forallb wself more = true /\ (wrun env key w more = Panic \/ exists w' e, wrun env key w more = Ok (w', e) /\ completed env key merging f0 (evs ++ e)).
Proof.
  induction n as [n IHn] using (well_founded_induction lt_wf). induction m as [m IHm] using (well_founded_induction lt_wf). intros ops w evs L1 L2 L RUN.
  assert (V : winv env key merging ka evs w). { destruct (wrun_ok env key merging ka KEY ops [] _ (init_inv env key merging ka f0) L) as [(w' & e & E & V)|(E & _)]; rewrite RUN in E; [|discriminate]. injection E as <- <-. exact V. }
  destruct (wmoves_or_not _ _ V) as [Q|(op & S & [P|(w1 & e1 & E & (A & B))])].
  - exists []. split; [reflexivity|]. right. exists w, []. split; [reflexivity|]. rewrite app_nil_r. eapply rest_completed; eauto.
  - exists [op]. split; [cbn; rewrite S; reflexivity|]. left. cbn. rewrite P. reflexivity.
  - assert (RUN1 : wrun env key (world_init merging ka f0) (ops ++ [op]) = Ok (w1, evs ++ e1)). { rewrite (wrun_app _ [op] _ _ _ RUN). cbn [wrun]. rewrite E. cbn [bind]. rewrite app_nil_r. reflexivity. }
    assert (LG : wlegal (ops ++ [op])) by (apply Forall_app; split; [exact L|apply self_legal; exact S]).
    assert (X : exists more, forallb wself more = true /\ (wrun env key w1 more = Panic \/ exists w' e, wrun env key w1 more = Ok (w', e) /\ completed env key merging f0 ((evs ++ e1) ++ e))).
    { destruct (le_lt_dec (load1 w) (load1 w1)) as [C|C].
      - refine (IHm (load2 w1) _ (ops ++ [op]) w1 (evs ++ e1) _ _ LG RUN1); lia.
      - refine (IHn (load1 w1) _ (load2 w1) (ops ++ [op]) w1 (evs ++ e1) _ _ LG RUN1); lia. }
    destruct X as (more & B' & X). exists (op :: more). split; [cbn; rewrite S; exact B'|]. cbn [wrun]. rewrite E. cbn [bind]. destruct X as [X|(w' & e & X & C)]; rewrite X; cbn [bind]; [left; reflexivity|].
    right. exists w', (e1 ++ e). split; [reflexivity|]. rewrite app_assoc. exact C.
Qed.
Lemma can_complete ops w evs : wlegal ops -> wrun env key (world_init merging ka f0) ops = Ok (w, evs) ->
  exists more, forallb wself more = true /\ (wrun env key w more = Panic \/ exists w' e, wrun env key w more = Ok (w', e) /\ completed env key merging f0 (evs ++ e)).
Proof. intros L R. exact (can_complete_from _ _ ops w evs (le_n _) (le_n _) L R). Qed.
Lemma completes ops w evs : wlegal ops -> wrun env key (world_init merging ka f0) ops = Ok (w, evs) -> (forall op, wself op = true -> wstep env key w op = Ok (w, [])) -> completed env key merging f0 evs.
Proof. intros L R H. eapply rest_completed; eauto. intros op I. apply H. eapply wcandidates_self; eauto. Qed.
Lemma bounded ops w evs : wlegal ops -> wrun env key (world_init merging ka f0) ops = Ok (w, evs) ->
  exists n, forall more w' e, forallb wself more = true -> wrun env key w more = Ok (w', e) -> (length e <= n)%nat.
Proof.
  intros L R. exists (load1 w). intros more w' e B R'. assert (V : winv env key merging ka evs w). { destruct (wrun_ok env key merging ka KEY ops [] _ (init_inv env key merging ka f0) L) as [(w1 & e1 & E & V)|(E & _)]; rewrite R in E; [|discriminate]. injection E as <- <-. exact V. }
  destruct (self_run env key merging ka KEY more evs w w' e V B R'). lia.
Qed.
Lemma stops ops w evs (ws : nat -> world) (moves : nat -> wop) : wlegal ops -> wrun env key (world_init merging ka f0) ops = Ok (w, evs) -> ws O = w ->
  (forall i, wself (moves i) = true /\ wstep env key (ws i) (moves i) <> Ok (ws i, []) /\ exists e, wstep env key (ws i) (moves i) = Ok (ws (S i), e)) -> False.
Proof.
  intros L R E H. assert (V : winv env key merging ka evs w). { destruct (wrun_ok env key merging ka KEY ops [] _ (init_inv env key merging ka f0) L) as [(w1 & e1 & X & V)|(X & _)]; rewrite R in X; [|discriminate]. injection X as <- <-. exact V. }
  subst w. exact (no_end env key merging ka KEY _ _ evs ws moves (le_n _) (le_n _) V H).
Qed.
End World.
