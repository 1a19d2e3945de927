(** The whole process goroutine by goroutine: every step keeps the invariant. *)
From Verif Require Import Base LibBase Env EntTerm EntPlat Registry Message Codec Timer Session Multipart Server Host Overlap Fine World.
From Verif Require Import SpecGeo SpecEntity SpecMsg SpecStream SpecSession SpecMulti SpecTimer SpecServer SpecHost SpecFine SpecWorld.
From Verif Require Import ProofStream ProofStream2 ProofMsg ProofMsg2 ProofServer4 ProofServer6 ProofHost ProofHost2 ProofHost3 ProofFine ProofFine2 ProofFine6 ProofFine13 ProofWorld ProofWorld2 ProofWorld3.

Section World.
Variables (env : Env) (key : option Z) (merging : bool) (ka : Z).
Hypothesis KEY : key_ok env key.
Notation winv := (winv env key merging ka).
Notation recv_ok := (recv_ok env key).
Notation send_but := (send_but env).
Notation send_ok := (send_ok env).

Definition fit evs pre w op id (oc : option conn) (oo : option fobj) : Prop :=
  match oc, oo with
    | None, None => came id evs = [] /\ wrote id evs = [] /\ got_by id (inside evs) = [] /\ handed id (inside evs) = []
    | Some c, Some o => send_but (op = FShut id) id evs c o /\
        forall e s1 o', fstep (wo_fine w) op = Ok (s1, e) -> acted id e c o o' -> pc_of s1 id = Some (fo_pc o') -> recv_ok id (evs ++ pre ++ map WFine e) (fuller id e c) o'
    | _, _ => False
    end.
Lemma unchanged evs pre w op id : winv evs w -> silent pre -> (forall m, op <> FRecv id m) -> op <> FFail id -> fit evs pre w op id (conn_get (wo_conns w) id) (fobj_get (fi_objs (wo_fine w)) id).
Proof.
  intros V S N1 N2. pose proof (wi_conn _ _ _ _ _ _ V id) as C. unfold fit. destruct (conn_get _ id) as [c|], (fobj_get _ id) as [o|]; try contradiction; auto.
  destruct C as (R & SE). split; [eapply send_weak; [|exact SE]; contradiction|]. intros e s1 o' E AC _. destruct (fstep_events _ _ _ _ id E) as (G & F & _). eapply recv_keep; eauto.
Qed.
Lemma replaced evs pre w op id c : winv evs w -> silent pre -> (forall i, i <> id -> (forall m, op <> FRecv i m) /\ op <> FFail i) ->
  fit evs pre w op id (Some c) (fobj_get (fi_objs (wo_fine w)) id) ->
  forall i, fit evs pre w op i (conn_get (wo_conns (set_wconn w id c)) i) (fobj_get (fi_objs (wo_fine w)) i).
Proof.
  intros V S N F i. cbn [set_wconn wo_conns]. rewrite conn_get_set. destruct (Z.eqb_spec id i) as [<-|NE]; [exact F|]. destruct (N i ltac:(congruence)). apply unchanged; auto.
Qed.
Lemma both evs w id c : winv evs w -> conn_get (wo_conns w) id = Some c -> exists o, fobj_get (fi_objs (wo_fine w)) id = Some o /\ recv_ok id evs c o /\ send_ok id evs c o.
Proof. intros V G. pose proof (wi_conn _ _ _ _ _ _ V id) as C. rewrite G in C. destruct (fobj_get _ id) as [o|]; [|contradiction]. eauto. Qed.
(** Nothing but connections changes, and perhaps something arrives or is written. *)
Lemma quiet evs w w' pre : winv evs w -> wo_fine w' = wo_fine w -> inside pre = [] ->
  (forall id, ~ In (WFine (XFail id)) pre) ->
  (forall id, match conn_get (wo_conns w') id, fobj_get (fi_objs (wo_fine w)) id with
    | None, None => came id (evs ++ pre) = [] /\ wrote id (evs ++ pre) = [] /\ got_by id (inside evs) = [] /\ handed id (inside evs) = []
    | Some c, Some o => recv_ok id (evs ++ pre) c o /\ send_ok id (evs ++ pre) c o
    | _, _ => False end) -> winv (evs ++ pre) w'.
Proof.
  intros V F I N C. constructor.
  - rewrite inside_app, I, app_nil_r, F. apply V.
  - intros id. specialize (C id). rewrite F, inside_app, I, app_nil_r. exact C.
  - intros id a b E. eapply why_more; eauto. apply V.
Qed.
Lemma recv_more id evs pre c c' o : recv_ok id evs c o -> inside pre = [] -> bytes_ok (came id pre) -> cn_at c' = cn_at c -> cn_buf c' = cn_buf c -> cn_in c' = cn_in c ++ came id pre -> recv_ok id (evs ++ pre) c' o.
Proof.
  intros [B (past & rest & A & P & M)] I BY C1 C2 C3. constructor; rewrite came_app; [apply bytes_ok_app; auto|]. exists past, (rest ++ came id pre). rewrite A, app_assoc. split; [reflexivity|].
  rewrite inside_app, I, app_nil_r. split; [exact P|]. rewrite C1, C2, C3. destruct (cn_at c).
  - destruct M as (-> & M). rewrite app_assoc. auto.
  - destruct M as (-> & M). rewrite app_assoc. auto.
  - destruct M as (M & F). split; auto. apply in_app_iff. auto.
Qed.
Lemma send_same id evs pre c c' o : send_ok id evs c o -> inside pre = [] -> wrote id pre = [] -> cn_queue c' = cn_queue c -> cn_flight c' = cn_flight c -> cn_sending c' = cn_sending c -> send_ok id (evs ++ pre) c' o.
Proof.
  intros [S D R F P] I W C1 C2 C3. constructor; rewrite ?inside_app, ?I, ?wrote_app, ?W, ?app_nil_r; unfold in_flight, now_full in *; rewrite ?C1, ?C2, ?C3; auto.
Qed.
Lemma recv_idle id evs c c' o : recv_ok id evs c o -> cn_at c' = cn_at c -> cn_buf c' = cn_buf c -> cn_in c' = cn_in c -> recv_ok id evs c' o.
Proof. intros R A B C. pose proof (recv_more id evs [] c c' o R eq_refl ltac:(constructor) A B) as H. rewrite (app_nil_r evs) in H. apply H. change (came id []) with (@nil Z). rewrite app_nil_r. exact C. Qed.

(** ** The steps of the server *)
Lemma plain_act evs w op : winv evs w -> good_op op -> (forall id b, op <> FQueue id b) -> (forall id, op <> FConnect id) -> (forall id m, op <> FRecv id m) -> (forall id, op <> FFail id) ->
  exists w' e, act w op = Ok (w', map WFine e) /\ winv (evs ++ map WFine e) w' /\ wo_fs w' = wo_fs w /\ wo_up w' = wo_up w /\
    exists s1, fstep (wo_fine w) op = Ok (s1, e) /\ forall id, pc_of (wo_fine w') id = pc_of s1 id.
Proof.
  intros V G N1 N2 N3 N4. apply (act_inv env key merging ka evs [] w w op V eq_refl G N1 N2 silent_nil).
  - rewrite app_nil_r. apply V.
  - intros id E. destruct (N4 _ E).
  - intros id. apply unchanged; auto using silent_nil.
Qed.
Lemma connect_act evs w id : winv evs w -> conn_get (wo_conns w) id = None ->
  exists w' e, act (set_wconn w id new_conn) (FConnect id) = Ok (w', map WFine e) /\ winv (evs ++ map WFine e) w' /\ wo_fs w' = wo_fs w /\ wo_up w' = wo_up w /\
    exists s1, fstep (wo_fine w) (FConnect id) = Ok (s1, e) /\ forall i, pc_of (wo_fine w') i = pc_of s1 i.
Proof.
  intros V G. pose proof (wi_run _ _ _ _ _ _ V) as R.
  pose proof (wi_conn _ _ _ _ _ _ V id) as C. rewrite G in C. destruct (fobj_get (fi_objs (wo_fine w)) id) eqn:Go; [contradiction|].
  set (s1 := set_freg (set_fobj (wo_fine w) id (Fobj sinit (GClock ThenAddCb) false false false CNot)) (id :: fi_reg (wo_fine w))).
  assert (E : fstep (wo_fine w) (FConnect id) = Ok (s1, [XConnect id])) by (cbn [fstep]; rewrite Go; reflexivity).
  assert (GS : forall i, fobj_get (fi_objs s1) i = if id =? i then Some (Fobj sinit (GClock ThenAddCb) false false false CNot) else fobj_get (fi_objs (wo_fine w)) i) by (intros i; unfold s1; cbn [set_freg fi_objs]; apply set_fobj_get).
  exists (World s1 (wo_conns (set_wconn w id new_conn)) (wo_fs w) (wo_up w)), [XConnect id]. unfold act. cbn [set_wconn wo_fine wo_conns wo_fs wo_up]. rewrite E. cbn [bind fold_left put_in flat_map frun map app].
  split; [reflexivity|]. split; [|split; [reflexivity|split; [reflexivity|exists s1; auto]]].
  assert (I1 : inside (evs ++ [WFine (XConnect id)]) = inside evs ++ [XConnect id]) by (rewrite inside_app; reflexivity).
  constructor; rewrite ?I1.
  - cbn [wo_fine]. eapply (reached_more merging ka _ _ [FConnect id]); [exact R|repeat constructor|]. cbn [frun]. rewrite E. reflexivity.
  - cbn [wo_fine wo_conns]. intros i. rewrite conn_get_set, GS. rewrite got_app, handed_app. cbn [got_by handed flat_map]. rewrite !app_nil_r.
    assert (I2 : came i (evs ++ [WFine (XConnect id)]) = came i evs) by (rewrite came_app; cbn; apply app_nil_r).
    assert (I3 : wrote i (evs ++ [WFine (XConnect id)]) = wrote i evs) by (rewrite wrote_app; cbn; apply app_nil_r).
    rewrite I2, I3. destruct (Z.eqb_spec id i) as [<-|N].
    + destruct C as (C1 & C2 & C3 & C4). split.
      * constructor; rewrite I2, C1; [constructor|]. exists [], []. split; [reflexivity|]. rewrite I1, got_app, C3. cbn [cn_at new_conn cn_in cn_buf fo_pc]. split; [intros x; cbn [app got_by flat_map]; destruct (says env key x); reflexivity|].
        split; [reflexivity|discriminate].
      * constructor; rewrite ?I1, ?handed_app, ?C4, ?I3, ?C2; cbn [handed flat_map app]; try (cbn; auto; fail); try discriminate.
        -- exists [], []. cbn. repeat split; auto.
        -- cbn. lia.
    + pose proof (wi_conn _ _ _ _ _ _ V i) as Ci. destruct (conn_get (wo_conns w) i) as [c|], (fobj_get _ i) as [o|]; auto. destruct Ci as ([B1 B2] & [S1 S2 S3 S4 S5]). split.
      * constructor; rewrite I2; auto. rewrite I1, got_app. cbn [got_by flat_map]. rewrite app_nil_r. destruct B2 as (past & rest & A & P & M). exists past, rest. split; auto. split; auto. destruct (cn_at c); auto.
        destruct M as (M1 & M2). split; auto. apply in_app_iff; auto.
      * constructor; rewrite ?I1, ?handed_app, ?I3; cbn [handed flat_map app]; rewrite ?app_nil_r; auto.
  - intros i a b X. eapply (why_more env key evs [WFine (XConnect id)]); eauto; [|apply V]. intros j [Y|[]]. discriminate.
Qed.
(** The goroutine of a session fails. *)
Lemma fail_act evs pre w id c i b o : winv evs w -> conn_get (wo_conns w) id = Some c -> fobj_get (fi_objs (wo_fine w)) id = Some o -> fo_pc o = GRecv -> silent pre -> (forall j, ~ In (WFine (XFail j)) pre) ->
  ends_because env key id (evs ++ pre) ->
  exists w' e, act (set_wconn w id (with_recv c i b Left)) (FFail id) = Ok (w', map WFine e) /\ winv (evs ++ pre ++ map WFine e) w' /\ wo_fs w' = wo_fs w /\ wo_up w' = wo_up w /\
    exists s1, fstep (wo_fine w) (FFail id) = Ok (s1, e) /\ forall j, pc_of (wo_fine w') j = pc_of s1 j.
Proof.
  intros V Gc Go P SI NF W. apply (act_inv env key merging ka evs pre w (set_wconn w id (with_recv c i b Left)) (FFail id) V eq_refl Logic.I ltac:(discriminate) ltac:(discriminate) SI).
  - apply why_more; auto. apply V.
  - intros j E. injection E as <-. exact W.
  - apply replaced; auto; [intros j N; split; congruence|]. unfold fit. rewrite Go. destruct (both _ _ _ _ V Gc) as (o0 & Go0 & R & S). rewrite Go in Go0. injection Go0 as <-. split.
    + apply send_weak with (P := False); [contradiction|]. destruct S as [S1 S2 S3 S4 S5]. constructor; auto.
    + intros e s1 o' E AC PC. destruct R as [B (past & rest & A & PA & M)]. destruct (SI) as (SI1 & SI2). destruct (SI2 id) as (SI3 & _).
      assert (CE : came id (evs ++ pre ++ map WFine e) = came id evs) by (rewrite !came_app, came_fine, SI3, !app_nil_r; reflexivity).
      assert (G0 : got_by id e = []) by (apply (fstep_events _ _ _ _ id E); discriminate).
      constructor; rewrite CE; auto. exists past, rest. rewrite !inside_app, inside_fine, SI1, !got_app, G0. cbn [app]. rewrite app_nil_r. split; auto. split; auto.
      cbn [fuller with_send with_recv cn_at]. cbn [fstep] in E. rewrite Go, P in E. unfold fclose in E. cbn [fo_closed at_pc] in E.
      destruct (fo_closed o); injection E as <- <-; unfold pc_of in PC; rewrite !set_fobj_get, !Z.eqb_refl in PC; cbn in PC; injection PC as <-; (split; [reflexivity|]); rewrite !in_app_iff; right; right; left; reflexivity.
Qed.
(** It receives a message. *)
Lemma recv_act evs w id c i b m o past : winv evs w -> conn_get (wo_conns w) id = Some c -> fobj_get (fi_objs (wo_fine w)) id = Some o -> fo_pc o = GRecv -> received m ->
  came id evs = past ++ b ++ i -> (forall x, says env key (past ++ x) = (got_by id (inside evs) ++ m :: fst (says env key x), snd (says env key x))) ->
  exists w' e, act (set_wconn w id (with_recv c i b AtStart)) (FRecv id m) = Ok (w', map WFine e) /\ winv (evs ++ map WFine e) w' /\ wo_fs w' = wo_fs w /\ wo_up w' = wo_up w /\
    exists s1, fstep (wo_fine w) (FRecv id m) = Ok (s1, e) /\ forall j, pc_of (wo_fine w') j = pc_of s1 j.
Proof.
  intros V Gc Go P RM A PA. apply (act_inv env key merging ka evs [] w (set_wconn w id (with_recv c i b AtStart)) (FRecv id m) V eq_refl RM ltac:(discriminate) ltac:(discriminate) silent_nil).
  - rewrite app_nil_r. apply V.
  - discriminate.
  - apply replaced; auto using silent_nil; [intros j N; split; congruence|]. unfold fit. rewrite Go. destruct (both _ _ _ _ V Gc) as (o0 & Go0 & R & S). rewrite Go in Go0. injection Go0 as <-. split.
    + apply send_weak with (P := False); [contradiction|]. destruct S as [S1 S2 S3 S4 S5]. constructor; auto.
    + intros e s1 o' E AC PC. cbn [app]. cbn [fstep] in E. rewrite Go, P in E. destruct (on_message _ m) as [p| |] eqn:O; try discriminate. cbn [bind] in E. injection E as <- <-.
      unfold pc_of in PC. rewrite set_fobj_get, Z.eqb_refl in PC. cbn in PC. injection PC as PC.
      assert (CE : came id (evs ++ map WFine [XRecv id m]) = came id evs) by (rewrite came_app; cbn; apply app_nil_r).
      constructor; rewrite CE; [apply R|]. exists past, (b ++ i). split; auto. rewrite inside_app, inside_fine, got_app. cbn [got_by flat_map app]. rewrite Z.eqb_refl. split.
      * intros x. rewrite PA, <- app_assoc. reflexivity.
      * cbn [fuller with_send with_recv cn_at cn_buf cn_in]. split; auto. rewrite <- PC. intros ->. clear -O. unfold on_message in O.
        repeat match type of O with context [match ?x with _ => _ end] => destruct x end; discriminate.
Qed.

(** ** Inside Receive *)
Definition went (evs : list wevent) (w : world) (r : res (world * list wevent)) : Prop := exists w' e, r = Ok (w', e) /\ winv (evs ++ e) w'.
Lemma went_act evs w op (P : world -> Prop) : (exists w' e, act w op = Ok (w', map WFine e) /\ winv (evs ++ map WFine e) w' /\ P w') -> went evs w (act w op).
Proof. intros (w' & e & A & V & _). exists w', (map WFine e). auto. Qed.
Lemma upload_inv evs w id f t : winv evs w -> winv evs (set_up w id f t).
Proof. intros [A B C]. constructor; auto. Qed.
Lemma begin_inv evs w id : winv evs w -> winv evs (begin_upload w id).
Proof. intros V. unfold begin_upload. destruct (pc_of _ id) as [[]|]; auto. destruct (packet_of m); auto using upload_inv. Qed.
Lemma got_ok evs w id c i b p o past : winv evs w -> conn_get (wo_conns w) id = Some c -> fobj_get (fi_objs (wo_fine w)) id = Some o -> fo_pc o = GRecv ->
  came id evs = past ++ b ++ i -> (forall x, says env key (past ++ x) = (got_by id (inside evs) ++ fst (says env key x), snd (says env key x))) ->
  went evs w (got w id (with_recv c i b p) (read_from_buffer env key b)) \/
  (got w id (with_recv c i b p) (read_from_buffer env key b) = Panic /\ snd (says env key (came id evs)) = GotPanic).
Proof.
  intros V G Go PC A P. destruct (both _ _ _ _ V G) as (o0 & Go0 & R & S). rewrite Go in Go0. injection Go0 as <-. destruct (read_from_buffer env key b) as [sc b'] eqn:E. apply rfb_step in E. unfold got.
  assert (BY : bytes_ok (past ++ b ++ i)). { rewrite <- A. apply R. }
  destruct sc as [m|e| |].
  - left. destruct E as (f & -> & NF & D).
    change (with_recv (with_recv c i (126 :: f ++ 126 :: b') p) (cn_in (with_recv c i (126 :: f ++ 126 :: b') p)) b' AtStart) with (with_recv c i b' AtStart).
    destruct (recv_act evs w id c i b' m o (past ++ 126 :: f ++ [126]) V G Go PC) as (w' & e & AC & V' & _).
    + eapply (decode_received env key (around f)); auto.
      apply bytes_ok_app in BY. destruct BY as (_ & BY). apply bytes_ok_app in BY. destruct BY as (BY & _).
      replace (126 :: f ++ 126 :: b') with (around f ++ b') in BY by (unfold around; cbn; rewrite <- app_assoc; reflexivity). apply bytes_ok_app in BY. apply BY.
    + rewrite A; rewrite <- !app_assoc; cbn [app]; rewrite <- !app_assoc; reflexivity.
    + intros x. rewrite <- app_assoc. rewrite P. cbn [app]. rewrite <- app_assoc. cbn [app]. rewrite (says_frame env key f x m NF D). reflexivity.
    + rewrite AC. cbn [bind]. eexists _, _. split; [reflexivity|]. apply begin_inv, V'.
  - left. change (with_recv (with_recv c i b p) (cn_in (with_recv c i b p)) b' Left) with (with_recv c i b' Left). eapply went_act with (P := fun _ => True).
    destruct (fail_act evs [] w id c i b' o V G Go PC silent_nil ltac:(intros ? [])) as (w' & e' & AC & V' & _); [|exists w', e'; auto].
    rewrite app_nil_r. left. exists e. rewrite A, P, E. cbn [fst snd]. rewrite app_nil_r. reflexivity.
  - left. destruct E as (-> & E). exists (set_wconn w id (with_recv c i b InRead)), []. split; [reflexivity|]. apply quiet with (w := w); auto.
    intros x. cbn [set_wconn wo_conns]. rewrite conn_get_set, !app_nil_r. destruct (Z.eqb_spec id x) as [<-|N].
    + rewrite Go. split; [|destruct S as [S1 S2 S3 S4 S5]; constructor; auto]. constructor; [apply R|]. exists past, (b ++ i). split; auto. split; [exact P|]. cbn [cn_at cn_in cn_buf with_recv]. auto.
    + exact (wi_conn _ _ _ _ _ _ V x).
  - right. split; auto. destruct E as (f & q & -> & NF & D). rewrite A, P. rewrite (says_panic env key f q i NF D). reflexivity.
Qed.
Lemma too_long s buf past d rest : s = past ++ (buf ++ d) ++ rest -> incomplete buf -> (length d <= 128)%nat -> 65535 < zlen (buf ++ d) -> ~ manageable s.
Proof. intros A I L Z0 M. rewrite A, <- app_assoc in M. apply manageable_suffix in M. apply (manageable_open _ _ I) in M. rewrite zlen_app in Z0. unfold zlen in *. lia. Qed.
Lemma shut_happened evs w id o : winv evs w -> fobj_get (fi_objs (wo_fine w)) id = Some o -> fo_closed o = true -> In (XShut id) (inside evs).
Proof.
  intros V Go C. pose proof (ws_closing _ _ _ _ (reached_whole _ _ _ _ (wi_run _ _ _ _ _ _ V))) as CL. pose proof (cg_obj _ _ CL id) as W. rewrite Go in W. unfold obj_view in W. destruct W as (_ & W & _).
  rewrite C in W. symmetry in W. unfold shut_in in W. apply existsb_exists in W as (x & I & X). destruct x; try discriminate. apply Z.eqb_eq in X. subst. exact I.
Qed.
Lemma still evs w : winv evs w -> went evs w (Ok (w, [])).
Proof. intros V. exists w, []. rewrite app_nil_r. auto. Qed.
Lemma turn_ok evs w id r : winv evs w -> went evs w (receive env key w id r) \/ (receive env key w id r = Panic /\ snd (says env key (came id evs)) = GotPanic).
Proof.
  intros V. unfold receive. destruct (pc_of (wo_fine w) id) as [p|] eqn:PC; [|left; apply still; auto]. destruct p; try (left; apply still; auto; fail).
  destruct (conn_get (wo_conns w) id) as [c|] eqn:G; [|left; apply still; auto].
  destruct (both _ _ _ _ V G) as (o & Go & R & S). assert (P0 : fo_pc o = GRecv) by (unfold pc_of in PC; rewrite Go in PC; congruence). destruct R as [B (past & rest & A & P & M)]. destruct (cn_at c) eqn:PH.
  - destruct M as (-> & _). pose proof (got_ok evs w id c (cn_in c) (cn_buf c) AtStart o past V G Go P0 A P) as K. rewrite <- PH, with_recv_id in K. exact K.
  - destruct M as (-> & IC & _). destruct r as [k|e].
    + destruct (firstn (Nat.max 1 (Nat.min k 128)) (cn_in c)) as [|d0 d] eqn:F.
      { left. destruct (is_closed (wo_fine w) id) eqn:CL; [|apply still; auto]. eapply went_act with (P := fun _ => True).
        destruct (fail_act evs [] w id c (cn_in c) (cn_buf c) o V G Go P0 silent_nil ltac:(intros ? [])) as (w' & e' & AC & V' & _); [|exists w', e'; auto].
        rewrite app_nil_r. right. right. right. split; [eapply shut_happened; eauto; unfold is_closed in CL; rewrite Go in CL; exact CL|].
        assert (I0 : cn_in c = []) by (destruct (cn_in c); auto; assert (X : exists n, Nat.max 1 (Nat.min k 128) = Datatypes.S n) by (exists (Nat.max 1 (Nat.min k 128) - 1)%nat; lia); destruct X as (n & X); rewrite X in F; discriminate).
        rewrite I0, app_nil_r in A. rewrite A, P, (says_open env key _ IC). cbn [fst snd]. rewrite app_nil_r. reflexivity. }
      set (n := Nat.max 1 (Nat.min k 128)) in *. pose proof (firstn_cons_app n (cn_in c)) as SP. rewrite F in SP. cbv zeta.
      assert (A' : came id evs = past ++ (cn_buf c ++ d0 :: d) ++ skipn n (cn_in c)). { rewrite A. rewrite SP at 1. rewrite <- !app_assoc. reflexivity. }
      destruct (65535 <? zlen (cn_buf c ++ d0 :: d)) eqn:Z0.
      * left. change (with_recv (with_recv c (skipn n (cn_in c)) (cn_buf c ++ d0 :: d) InRead) (cn_in (with_recv c (skipn n (cn_in c)) (cn_buf c ++ d0 :: d) InRead)) (cn_buf c ++ d0 :: d) Left)
          with (with_recv c (skipn n (cn_in c)) (cn_buf c ++ d0 :: d) Left). eapply went_act with (P := fun _ => True).
        destruct (fail_act evs [] w id c (skipn n (cn_in c)) (cn_buf c ++ d0 :: d) o V G Go P0 silent_nil ltac:(intros ? [])) as (w' & e' & AC & V' & _); [|exists w', e'; auto].
        rewrite app_nil_r. right. left. eapply too_long; eauto; [|lia]. rewrite <- F, firstn_length. lia.
      * apply (got_ok evs w id c (skipn n (cn_in c)) (cn_buf c ++ d0 :: d) InRead o past V G Go P0 A' P).
    + left. assert (SI : silent [WReadErr id]) by (split; [reflexivity|intros; split; reflexivity]).
      destruct (fail_act evs [WReadErr id] w id c (cn_in c) (cn_buf c) o V G Go P0 SI) as (w' & e' & AC & V' & _); [intros ? [X|[]]; discriminate|right; right; left; eauto|].
      rewrite AC. cbn [bind]. eexists _, _. split; [reflexivity|]. exact V'.
  - left. apply still; auto.
Qed.

(** ** Files *)
Lemma file_ok evs w id : winv evs w -> went evs w (access w id).
Proof.
  intros V. assert (K : forall w0 op, winv evs w0 -> (exists b, op = FStored id b) \/ (exists x, op = FMerged id x) -> went evs w (act w0 op)).
  { intros w0 op V0 H. assert (X : exists w' e, act w0 op = Ok (w', map WFine e) /\ winv (evs ++ map WFine e) w' /\ True).
    { destruct (plain_act evs w0 op V0) as (w' & e & A & B & _); try (destruct H as [(b & ->)|(x & ->)]; try exact Logic.I; discriminate). eauto. }
    destruct X as (w' & e & A & B & _). exists w', (map WFine e). auto. }
  unfold access. destruct (pc_of (wo_fine w) id) as [[]|]; try (apply still; auto; fail).
  - destruct (th_at (wo_up w id)); try (apply K; eauto; fail); destruct (thread_step (wo_fs w) (wo_up w id)) as [f t]; destruct (th_at t);
      try (apply K; eauto using upload_inv; fail); eexists _, _; (split; [reflexivity|]); rewrite app_nil_r; apply upload_inv; auto.
  - destruct (th_at (wo_up w id)); try (apply K; eauto; fail); destruct (thread_step (wo_fs w) (wo_up w id)) as [f t]; destruct (th_at t);
      try (apply K; eauto using upload_inv; fail); eexists _, _; (split; [reflexivity|]); rewrite app_nil_r; apply upload_inv; auto.
Qed.
End World.
