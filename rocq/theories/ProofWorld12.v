(** The whole process goroutine by goroutine: what is said to be stored is in its file. *)
From Verif Require Import Base LibBase Bits LibBits Env EntTerm EntPlat Registry Message Codec Timer Session Multipart Server Host Overlap Fine World.
From Verif Require Import SpecGeo SpecEntity SpecMsg SpecStream SpecSession SpecMulti SpecTimer SpecServer SpecHost SpecOverlap SpecFine SpecWorld.
From Verif Require Import LibMulti ProofMulti ProofOverlap ProofOverlap2 ProofHost ProofFine ProofFine2 ProofFine6 ProofFine7 ProofFine13 ProofWorld ProofWorld2 ProofWorld3 ProofWorld4 ProofWorld5 ProofWorld6 ProofWorld7.

Section World.
Variables (env : Env) (key : option Z) (merging : bool) (ka : Z) (f0 : fs).
Hypothesis KEY : key_ok env key.
Notation winv := (winv env key merging ka).
Definition storing (k : task) (p : packet) : Prop := k = TMkdir p \/ k = TTrunc p \/ k = TFill p.
Definition sinv (evs : list wevent) (w : world) (id : Z) : Prop :=
  phase (pc_of (wo_fine w) id) = 1%nat -> exists ps p, packets merging id (inside evs) = ps ++ [p] /\ storing (th_at (wo_up w id)) p.
Lemma s_same evs w evs' w' id : sinv evs w id -> packets merging id (inside evs') = packets merging id (inside evs) ->
  wo_up w' id = wo_up w id -> phase (pc_of (wo_fine w') id) = phase (pc_of (wo_fine w) id) -> sinv evs' w' id.
Proof. unfold sinv. intros H -> -> ->. exact H. Qed.
Lemma s_act evs pre w w0 op w' ev : (forall id, sinv evs w id) -> wo_fine w0 = wo_fine w -> wo_up w0 = wo_up w -> inside pre = [] ->
  act w0 op = Ok (w', ev) -> (forall id m, op <> FRecv id m) -> (forall id b, op <> FStored id b) -> (forall id c, op <> FMerged id c) -> forall id, sinv (evs ++ pre ++ ev) w' id /\ results id (inside (pre ++ ev)) = [].
Proof.
  intros U E1 E3 P A N1 N2 N3 id. destruct (act_eq _ _ _ _ A) as (s1 & e & E & -> & F1 & F2 & F3). rewrite E1 in E. destruct (fstep_events _ _ _ _ id E) as (G & _ & _ & R). split.
  - apply (s_same evs w); auto.
    + rewrite !inside_app, inside_fine, P. cbn [app]. rewrite packets_app, (packets_none merging id e), app_nil_r; auto.
    + rewrite F2, E3. reflexivity.
    + rewrite F3. eapply phase_step; eauto.
  - rewrite inside_app, P, inside_fine. cbn [app]. apply R; auto.
Qed.
Lemma s_quiet evs pre w w' : (forall id, sinv evs w id) -> wo_fine w' = wo_fine w -> wo_up w' = wo_up w -> inside pre = [] -> forall id, sinv (evs ++ pre) w' id /\ results id (inside pre) = [].
Proof. intros U E1 E3 P id. split; [|rewrite P; reflexivity]. apply (s_same evs w); auto; rewrite ?inside_app, ?P, ?app_nil_r, ?E1, ?E3; auto. Qed.
Lemma s_recv evs w c id m w1 ev : (forall i, sinv evs w i) -> fi_auto (wo_fine w) = merging -> pc_of (wo_fine w) id = Some GRecv -> act (set_wconn w id c) (FRecv id m) = Ok (w1, ev) -> received m ->
  forall i, sinv (evs ++ ev) (begin_upload w1 id) i /\ results i (inside ev) = [].
Proof.
  intros U AU PC A RM i. destruct (act_eq _ _ _ _ A) as (s1 & e & E & -> & F1 & F2 & F3). cbn [set_wconn wo_fine wo_fs wo_up] in *. pose proof E as E0. cbn [fstep] in E0. unfold pc_of in PC.
  destruct (fobj_get (fi_objs (wo_fine w)) id) as [o|] eqn:Go; [|discriminate]. injection PC as PC. rewrite PC, AU in E0. destruct (on_message merging m) as [p| |] eqn:OM; try discriminate. cbn [bind] in E0. injection E0 as <- <-.
  pose proof (part_cases merging m p RM OM) as PK. split; [|rewrite inside_fine; reflexivity].
  assert (P1 : pc_of (wo_fine w1) id = Some p). { rewrite F3. unfold pc_of. rewrite set_fobj_get, Z.eqb_refl. reflexivity. }
  destruct (Z.eq_dec i id) as [->|N].
  - assert (PE : packets merging id (inside (evs ++ map WFine [XRecv id m])) = packets merging id (inside evs) ++ match part_of merging m with Some (mf, sq, data) => [Packet mf sq data] | None => [] end).
    { rewrite inside_app, inside_fine, packets_app. f_equal. unfold packets. cbn [got_by flat_map]. rewrite Z.eqb_refl. cbn [app flat_map]. rewrite app_nil_r. reflexivity. }
    unfold begin_upload. rewrite P1. destruct (part_of merging m) as [[[mf sq] data]|].
    + destruct PK as (-> & ->). intros _. exists (packets merging id (inside evs)), (Packet mf sq data). split; [exact PE|]. cbn [set_up wo_up]. rewrite Z.eqb_refl. left. reflexivity.
    + intros X. exfalso. destruct p; cbn in PK; try discriminate; rewrite P1 in X; cbn in X; congruence.
  - assert (X : sinv (evs ++ map WFine [XRecv id m]) w1 i).
    { apply (s_same evs w); auto.
      - rewrite inside_app, inside_fine, packets_app. unfold packets at 2. cbn [got_by flat_map]. replace (id =? i) with false by lia. cbn. apply app_nil_r.
      - rewrite F2. reflexivity.
      - rewrite F3. unfold pc_of. rewrite set_fobj_get. destruct (Z.eqb_spec id i); [congruence|reflexivity]. }
    unfold begin_upload. rewrite P1. destruct p; auto. destruct (packet_of m0); auto. apply (s_same _ _ _ _ _ X); auto. cbn [set_up wo_up]. destruct (Z.eqb_spec i id); [contradiction|]. destruct (Z.eqb_spec id i); [congruence|]. reflexivity.
Qed.
Lemma filled f p : on_disk (set_file f (pk_up p) (part_name (pk_up p) (pk_seq p)) (write_at 0 (pk_data p) (get_file f (pk_up p) (part_name (pk_up p) (pk_seq p))))) p.
Proof.
  unfold on_disk, set_file. cbn [fs_dirs]. rewrite alist_get_set, beq_refl. eexists. unfold write_at. cbn [firstn Nat.sub repeat app]. eexists. split; [reflexivity|]. rewrite alist_get_set, beq_refl. reflexivity.
Qed.
Lemma s_file evs w id w' e : (forall i, sinv evs w i) -> access w id = Ok (w', e) -> forall i, sinv (evs ++ e) w' i /\
  (In (XStored i true) (inside e) -> exists ps p, packets merging i (inside evs) = ps ++ [p] /\ on_disk (wo_fs w') p).
Proof.
  intros U E. assert (STILL : Ok (w, []) = Ok (w', e) -> forall i, sinv (evs ++ e) w' i /\ (In (XStored i true) (inside e) -> exists ps p, packets merging i (inside evs) = ps ++ [p] /\ on_disk (wo_fs w') p)).
  { intros X. injection X as <- <-. intro i. rewrite app_nil_r. split; [apply U|intros []]. }
  (* the goroutine says that it has stored or merged *)
  assert (SAID : forall w0 op, wo_fine w0 = wo_fine w -> (forall i, i <> id -> wo_up w0 i = wo_up w i) -> act w0 op = Ok (w', e) -> (exists b, op = FStored id b) \/ (exists c, op = FMerged id c) ->
    ((op = FStored id true) -> exists ps p, packets merging id (inside evs) = ps ++ [p] /\ on_disk (wo_fs w0) p) ->
    (exists m, pc_of (wo_fine w) id = Some (GStore m) /\ (exists b, op = FStored id b) \/ pc_of (wo_fine w) id = Some (GMerge m) /\ (exists c, op = FMerged id c)) ->
    forall i, sinv (evs ++ e) w' i /\ (In (XStored i true) (inside e) -> exists ps p, packets merging i (inside evs) = ps ++ [p] /\ on_disk (wo_fs w') p)).
  { intros w0 op E1 E2 A H D PC i. destruct (act_eq _ _ _ _ A) as (s1 & e' & F & _). destruct (acted_own _ _ _ _ _ _ _ A F H) as (-> & F1 & F2 & F3 & F4). rewrite E1 in F. split.
    - destruct (Z.eq_dec i id) as [->|N].
      + intros P. exfalso. rewrite F3 in P. destruct PC as (m & [(PC & b & ->)|(PC & c & ->)]); unfold pc_of in PC; cbn [fstep] in F; destruct (fobj_get (fi_objs (wo_fine w)) id) as [o|] eqn:Go; try discriminate; injection PC as PC; rewrite PC in F; injection F as <- <-;
          unfold pc_of in P; rewrite set_fobj_get, Z.eqb_refl in P; cbn [at_pc fo_pc] in P; [destruct b|destruct c]; discriminate.
      + destruct (F4 i N) as (G & _ & P). apply (s_same evs w); auto.
        * rewrite inside_app, packets_app, (packets_none merging i (inside (map WFine e'))), app_nil_r; auto.
        * rewrite F2. apply E2, N.
        * rewrite P, E1. reflexivity.
    - rewrite F1. intros I. destruct (Z.eq_dec i id) as [->|N].
      + apply D. rewrite inside_fine in I. destruct PC as (m & [(PC & b & ->)|(PC & c & ->)]); unfold pc_of in PC; cbn [fstep] in F; destruct (fobj_get (fi_objs (wo_fine w)) id) as [o|] eqn:Go; try discriminate; injection PC as PC; rewrite PC in F; injection F as <- <-; destruct I as [I|[]]; [injection I as <-; reflexivity|discriminate].
      + exfalso. destruct (F4 i N) as (_ & R & _). assert (X : In (XStored i true) (results i (inside (map WFine e')))) by (apply filter_In; split; [exact I|apply Z.eqb_refl]). rewrite R in X. destruct X. }
  unfold access in E. destruct (pc_of (wo_fine w) id) as [pc|] eqn:PC; auto. destruct pc; auto.
  - destruct (U id) as (ps & p & PE & ST); [rewrite PC; reflexivity|]. unfold thread_step in E.
    destruct ST as [K|[K|K]]; rewrite K in E; cbv zeta in E.
    + destruct (negb (fs_priv (wo_fs w))); cbn [th_at th_out] in E.
      * rewrite last_last in E. refine (SAID _ _ _ _ E _ _ _); eauto; [intros i N; cbn [set_up wo_up]; destruct (Z.eqb_spec i id); congruence|discriminate].
      * injection E as <- <-. intros i. split; [|intros []]. destruct (Z.eq_dec i id) as [->|N].
        -- intros _. exists ps, p. rewrite app_nil_r. split; [exact PE|]. cbn [set_up wo_up]. rewrite Z.eqb_refl. right. left. reflexivity.
        -- rewrite app_nil_r. apply (s_same evs w); auto. cbn [set_up wo_up]. destruct (Z.eqb_spec i id); congruence.
    + cbn [th_at] in E. injection E as <- <-. intros i. split; [|intros []]. destruct (Z.eq_dec i id) as [->|N].
      * intros _. exists ps, p. rewrite app_nil_r. split; [exact PE|]. cbn [set_up wo_up]. rewrite Z.eqb_refl. right. right. reflexivity.
      * rewrite app_nil_r. apply (s_same evs w); auto. cbn [set_up wo_up]. destruct (Z.eqb_spec i id); congruence.
    + destruct (negb (pk_seq p =? mp_sum (pk_up p))); cbn [th_at th_out] in E.
      * refine (SAID _ _ _ _ E _ _ _); eauto; [intros i N; cbn [set_up wo_up]; destruct (Z.eqb_spec i id); congruence|]. intros _. exists ps, p. split; [exact PE|]. apply filled.
      * refine (SAID _ _ _ _ E _ _ _); eauto; [intros i N; cbn [set_up wo_up]; destruct (Z.eqb_spec i id); congruence|]. intros _. exists ps, p. split; [exact PE|]. apply filled.
  - destruct (thread_step (wo_fs w) (wo_up w id)) as [f t].
    assert (MOVE : Ok (set_up w id f t, []) = Ok (w', e) -> forall i, sinv (evs ++ e) w' i /\ (In (XStored i true) (inside e) -> exists ps p, packets merging i (inside evs) = ps ++ [p] /\ on_disk (wo_fs w') p)).
    { intros X. injection X as <- <-. intros i. split; [|intros []]. destruct (Z.eq_dec i id) as [->|N]; [intros P; cbn [set_up wo_fine] in P; rewrite PC in P; discriminate|]. rewrite app_nil_r. apply (s_same evs w); auto. cbn [set_up wo_up]. destruct (Z.eqb_spec i id); congruence. }
    assert (END : forall w0 c, wo_fine w0 = wo_fine w -> (forall i, i <> id -> wo_up w0 i = wo_up w i) -> act w0 (FMerged id c) = Ok (w', e) -> forall i, sinv (evs ++ e) w' i /\ (In (XStored i true) (inside e) -> exists ps p, packets merging i (inside evs) = ps ++ [p] /\ on_disk (wo_fs w') p)).
    { intros w0 c E1 E2 A. refine (SAID w0 _ E1 E2 A _ _ _); eauto. discriminate. }
    destruct (th_at (wo_up w id)); [eapply END; eauto|..]; destruct (th_at t); try (apply MOVE; exact E); refine (END (set_up w id f t) _ eq_refl _ E); intros i N; cbn [set_up wo_up]; destruct (Z.eqb_spec i id); congruence.
Qed.
Lemma sstep_ok evs w op w' e : winv evs w -> (forall id, sinv evs w id) -> wstep env key w op = Ok (w', e) -> winv (evs ++ e) w' -> forall i, sinv (evs ++ e) w' i /\
  (In (XStored i true) (inside e) -> exists ps p, packets merging i (inside evs) = ps ++ [p] /\ on_disk (wo_fs w') p).
Proof.
  intros V U E V'. set (G := forall i, sinv (evs ++ e) w' i /\ results i (inside e) = []).
  assert (OK : G -> forall i, sinv (evs ++ e) w' i /\ (In (XStored i true) (inside e) -> exists ps p, packets merging i (inside evs) = ps ++ [p] /\ on_disk (wo_fs w') p)).
  { intros H i. destruct (H i) as (A & B). split; [exact A|]. intros I. exfalso. assert (X : In (XStored i true) (results i (inside e))) by (apply filter_In; split; [exact I|apply Z.eqb_refl]). rewrite B in X. destruct X. }
  assert (STILL : Ok (w, []) = Ok (w', e) -> G) by (intros X; injection X as <- <-; intro i; rewrite app_nil_r; split; [apply U|reflexivity]).
  assert (ACT : forall w0 o, wo_fine w0 = wo_fine w -> wo_up w0 = wo_up w -> act w0 o = Ok (w', e) -> (forall id m, o <> FRecv id m) -> (forall id b, o <> FStored id b) -> (forall id c, o <> FMerged id c) -> G)
    by (intros w0 o E1 E3 A N1 N2 N3; exact (s_act evs [] w w0 o w' e U E1 E3 eq_refl A N1 N2 N3)).
  assert (QUIET : forall w1 pre, Ok (w1, pre) = Ok (w', e) -> wo_fine w1 = wo_fine w -> wo_up w1 = wo_up w -> inside pre = [] -> G).
  { intros w1 pre X E1 E3 P. injection X as <- <-. exact (s_quiet evs pre w _ U E1 E3 P). }
  destruct op as [o|id d|id r|id|id|id rnd wr|id|id k]; cbn [wstep] in E; [apply OK..| |apply OK|apply OK|apply OK|apply OK].
  - destruct o; auto; try (eapply (ACT w); eauto; discriminate). destruct (conn_get (wo_conns w) id); auto. eapply (ACT (set_wconn w id new_conn)); eauto; try reflexivity; discriminate.
  - destruct (conn_get (wo_conns w) id); auto. eapply QUIET; eauto; reflexivity.
  - assert (GOT : forall c x, pc_of (wo_fine w) id = Some GRecv -> got w id c x = Ok (w', e) -> G).
    { intros c [sc b] PC Gt. unfold got in Gt. destruct sc as [m|err| |]; [|eapply (ACT (set_wconn w id _)); eauto; try reflexivity; discriminate|eapply QUIET; eauto; reflexivity|discriminate].
      destruct (act _ (FRecv id m)) as [[w1 ev]| |] eqn:A; try discriminate. cbn [bind] in Gt. injection Gt as <- <-. unfold G. eapply s_recv; eauto using winv_auto.
      destruct (act_eq _ _ _ _ A) as (s1 & e' & E' & -> & _). cbn [set_wconn wo_fine] in E'. eapply (recv_received merging ka (inside (evs ++ map WFine e')) _ id m (wi_run _ _ _ _ _ _ V')).
      rewrite inside_app, inside_fine. apply in_app_iff. right. cbn [fstep] in E'. unfold pc_of in PC. destruct (fobj_get (fi_objs (wo_fine w)) id) as [o|]; [|discriminate]. injection PC as PC. rewrite PC in E'.
      destruct (on_message (fi_auto (wo_fine w)) m); try discriminate. cbn [bind] in E'. injection E' as <- <-. left. reflexivity. }
    unfold receive in E. destruct (pc_of (wo_fine w) id) as [p|] eqn:PC; auto. destruct p; auto. destruct (conn_get (wo_conns w) id) as [c|]; auto. destruct (cn_at c); auto.
    + eapply GOT; eauto.
    + destruct r as [k|er].
      * destruct (firstn _ (cn_in c)) as [|d0 d].
        -- destruct (is_closed (wo_fine w) id); auto. eapply (ACT (set_wconn w id _)); eauto; try reflexivity; discriminate.
        -- cbv zeta in E. destruct (65535 <? _); [|eapply GOT; eauto]. eapply (ACT (set_wconn w id _)); eauto; try reflexivity; discriminate.
      * destruct (act _ (FFail id)) as [[w1 ev]| |] eqn:A; try discriminate. cbn [bind] in E. injection E as <- <-.
        unfold G; eapply (s_act evs [WReadErr id] w (set_wconn w id _) (FFail id)); eauto; try reflexivity; discriminate.
  - eapply s_file; eauto.
  - unfold wtake in E. destruct (conn_get (wo_conns w) id) as [c|]; auto. destruct (cn_sending c); auto. destruct (cn_flight c); auto. destruct (cn_queue c) as [|m q]; auto. cbv zeta in E.
    unfold queue_now in E. cbn [set_wconn wo_conns] in E. rewrite conn_get_set, Z.eqb_refl in E. cbn [cn_queue with_send frun fstep] in E. destruct (fobj_get (fi_objs (wo_fine w)) id) as [o|] eqn:Go; cbn [bind app map] in E.
    + injection E as <- <-. intros i. rewrite app_nil_r. split; [|reflexivity]. apply (s_same evs w); auto. cbn [wo_fine]. unfold pc_of. rewrite set_fobj_get. destruct (Z.eqb_spec id i) as [<-|]; [rewrite Go|]; reflexivity.
    + eapply QUIET; eauto; reflexivity.
  - unfold wwrite in E. destruct (conn_get (wo_conns w) id) as [c|]; auto. destruct (cn_flight c) as [m|]; auto. destruct (codec_send _ _ _ _ _); try discriminate.
    + eapply QUIET; eauto; reflexivity.
    + destruct (act _ (FShut id)) as [[w1 ev]| |] eqn:A; try discriminate. cbn [bind] in E. injection E as <- <-.
      unfold G; eapply (s_act evs [WSendErr id m] w (set_wconn w id _) (FShut id)); eauto; try reflexivity; discriminate.
  - eapply QUIET; eauto; unfold wquit; destruct (conn_get (wo_conns w) id) as [c|]; auto; destruct (cn_flight c); auto; destruct (is_closed _ _); auto.
  - destruct (conn_get (wo_conns w) id); auto. eapply QUIET; eauto; reflexivity.
Qed.
Lemma srun ops : forall evs w w' e, winv evs w -> wlegal ops -> (forall id, sinv evs w id) -> wrun env key w ops = Ok (w', e) -> winv (evs ++ e) w' /\ forall id, sinv (evs ++ e) w' id.
Proof.
  induction ops as [|op ops IH]; intros evs w w' e V L U E; cbn [wrun] in E.
  - injection E as <- <-. rewrite app_nil_r. auto.
  - inversion L; subst. assert (L1 : wlegal [op]) by (constructor; auto). destruct (wstep env key w op) as [[w1 e1]| |] eqn:E1; try discriminate. cbn [bind] in E. destruct (wrun env key w1 ops) as [[w2 e2]| |] eqn:E2; try discriminate. cbn [bind] in E. injection E as <- <-.
    destruct (wstep_ok env key merging ka KEY evs w op V L1) as [(w1' & e1' & X & V1)|(X & _)]; rewrite E1 in X; [|discriminate]. injection X as <- <-. rewrite app_assoc.
    eapply (IH (evs ++ e1)); eauto. intros i. eapply (sstep_ok evs w op w1 e1); eauto.
Qed.
Lemma stored ops op w evs w' e id : wlegal (ops ++ [op]) -> wrun env key (world_init merging ka f0) ops = Ok (w, evs) -> wstep env key w op = Ok (w', e) -> In (XStored id true) (inside e) ->
  exists ps p, packets merging id (inside evs) = ps ++ [p] /\ on_disk (wo_fs w') p.
Proof.
  intros L R E I. apply Forall_app in L as (L & L1). destruct (srun ops [] (world_init merging ka f0) w evs (init_inv env key merging ka f0) L) as (V & U); [intros i X; discriminate|exact R|]. cbn [app] in V, U.
  destruct (wstep_ok env key merging ka KEY evs w op V L1) as [(w1' & e1' & X & V1)|(X & _)]; rewrite E in X; [|discriminate]. injection X as <- <-. eapply sstep_ok; eauto.
Qed.
End World.
