(** Every history of Server.v is one of Fine.v: the relation between the states, and the pieces of the steps. *)
From Verif Require Import Base LibBase Env EntTerm EntPlat Registry Message Timer Session Multipart Server Fine.
From Verif Require Import SpecSession SpecTimer SpecServer SpecFine SpecSim ProofServer ProofFine ProofWorld2 ProofSim.

(** ** Runs and what is seen of them *)
Definition does (name : Z -> Z) (s : fine) (fops : list fop) (s' : fine) (l : list sight) : Prop :=
  exists fevs, frun s fops = Ok (s', fevs) /\ fine_received fops /\ forall nm, agree (fi_toks s') name nm -> flat_map (sight_of nm) fevs = l.
Lemma agree_le n m f g : agree m f g -> n <= m -> agree n f g.
Proof. intros A L t H. apply A. lia. Qed.
Lemma does_nil name s : does name s [] s [].
Proof. exists []. repeat split; constructor. Qed.
Lemma does_app name s a s1 l1 b s2 l2 : does name s a s1 l1 -> does name s1 b s2 l2 -> fi_toks s1 <= fi_toks s2 -> does name s (a ++ b) s2 (l1 ++ l2).
Proof.
  intros (e1 & R1 & F1 & H1) (e2 & R2 & F2 & H2) L. exists (e1 ++ e2). split; [eapply frun_app; eauto|]. split; [apply Forall_app; auto|].
  intros nm A. rewrite flat_map_app, (H1 nm), (H2 nm); auto. eapply agree_le; eauto.
Qed.
Lemma does_one name s op s1 e l : fstep s op = Ok (s1, e) -> match op with FRecv _ m => received m | _ => True end ->
  (forall nm, agree (fi_toks s1) name nm -> flat_map (sight_of nm) e = l) -> does name s [op] s1 l.
Proof. intros E R H. exists e. split; [apply frun_one, E|]. split; [constructor; [exact R|constructor]|exact H]. Qed.
Lemma does_step name s op s1 e l b s2 l2 : fstep s op = Ok (s1, e) -> match op with FRecv _ m => received m | _ => True end ->
  (forall nm, agree (fi_toks s1) name nm -> flat_map (sight_of nm) e = l) -> does name s1 b s2 l2 -> fi_toks s1 <= fi_toks s2 -> does name s (op :: b) s2 (l ++ l2).
Proof. intros E R H D L. change (op :: b) with ([op] ++ b). eapply does_app; [eapply does_one|..]; eauto. Qed.

(** ** The states *)
Definition twin (name : Z -> Z) (toks : Z) (added : bool) (so : sobj) (fo : fobj) : Prop :=
  exists fs log, fo = Fobj (SCfg fs [] None log) (if added then GRecv else GAddCb) (so_closed so) (so_full so) (so_cb so) (if so_ran so then COver else CNot) /\
    so_sess so = renamed name fs /\ Forall (fun r => rq_tok r < toks) (ss_reqs fs) /\ (added = false -> so_cb so = false).
Lemma forall_le n m l : Forall (fun r => rq_tok r < n) l -> n <= m -> Forall (fun r => rq_tok r < m) l.
Proof. intros F L. eapply Forall_impl; [|exact F]. cbn. intros; lia. Qed.
Lemma renamed_agree n f g s : agree n f g -> Forall (fun r => rq_tok r < n) (ss_reqs s) -> renamed g s = renamed f s.
Proof. intros A F. unfold renamed. rewrite (agree_map _ _ _ _ A F). reflexivity. Qed.
Lemma twin_agree name name' n n' ad so fo : twin name n ad so fo -> agree n name name' -> n <= n' -> twin name' n' ad so fo.
Proof.
  intros (fs & log & E & R & F & H) A L. exists fs, log. split; [exact E|]. split; [rewrite (renamed_agree _ _ _ _ A F); exact R|]. split; [eapply forall_le; eauto|exact H].
Qed.
Record sim (name : Z -> Z) (added : Z -> bool) (sv : server) (s : fine) : Prop := Sim {
  sm_auto : fi_auto s = sv_auto sv;
  sm_handlers : fi_handlers s = sv_handlers sv;
  sm_reg : fi_reg s = sv_reg sv;
  sm_tc : exists fired, fi_tc s = Tcfg (sv_timer sv) [] fired;
  sm_nodup : NoDup (sv_reg sv);
  sm_in : forall i, In i (sv_reg sv) -> obj_get (sv_objs sv) i <> None;
  sm_objs : forall i, match obj_get (sv_objs sv) i, fobj_get (fi_objs s) i with
                      | None, None => True
                      | Some so, Some fo => twin name (fi_toks s) (added i) so fo
                      | _, _ => False
                      end }.
Lemma sim_get name added sv s id so : sim name added sv s -> obj_get (sv_objs sv) id = Some so ->
  exists fo, fobj_get (fi_objs s) id = Some fo /\ twin name (fi_toks s) (added id) so fo.
Proof. intros H G. pose proof (sm_objs _ _ _ _ H id) as T. rewrite G in T. destruct (fobj_get _ id) as [fo|]; [eauto|contradiction]. Qed.
Lemma sim_none name added sv s id : sim name added sv s -> obj_get (sv_objs sv) id = None -> fobj_get (fi_objs s) id = None.
Proof. intros H G. pose proof (sm_objs _ _ _ _ H id) as T. rewrite G in T. destruct (fobj_get _ id) as [fo|]; [contradiction|reflexivity]. Qed.
(** The parts of the server that a step of one session leaves alone *)
Definition smoved (sv sv' : server) (id : Z) (so : sobj) : Prop :=
  sv_auto sv' = sv_auto sv /\ sv_handlers sv' = sv_handlers sv /\ sv_reg sv' = sv_reg sv /\
  forall j, obj_get (sv_objs sv') j = if id =? j then Some so else obj_get (sv_objs sv) j.
Lemma smoved_set sv id so : smoved sv (set_obj sv id so) id so.
Proof. repeat (split; [reflexivity|]). intros j. apply obj_get_set. Qed.
Lemma smoved_trans sv sv1 sv2 id a b : smoved sv sv1 id a -> smoved sv1 sv2 id b -> smoved sv sv2 id b.
Proof. intros (A1 & A2 & A3 & A4) (B1 & B2 & B3 & B4). repeat (split; [congruence|]). intros j. rewrite B4, A4. destruct (id =? j); reflexivity. Qed.
Lemma smoved_timer sv sv1 id a t : smoved sv sv1 id a -> smoved sv (set_timer sv1 t) id a.
Proof. intros (A1 & A2 & A3 & A4). repeat (split; [assumption|]). exact A4. Qed.
Lemma smoved_fs sv sv1 id a f : smoved sv sv1 id a -> smoved sv (set_fs sv1 f) id a.
Proof. intros (A1 & A2 & A3 & A4). repeat (split; [assumption|]). exact A4. Qed.
Lemma smoved_from_fs sv sv1 id a f : smoved (set_fs sv f) sv1 id a -> smoved sv sv1 id a.
Proof. intros (A1 & A2 & A3 & A4). repeat (split; [assumption|]). exact A4. Qed.
Lemma sim_moved name name' added added' sv sv' s s' id so so0 fo fired casts toks :
  sim name added sv s -> obj_get (sv_objs sv) id = Some so0 -> smoved sv sv' id so -> moved s s' id fo (Tcfg (sv_timer sv') [] fired) casts toks -> twin name' toks (added' id) so fo ->
  agree (fi_toks s) name name' -> fi_toks s <= toks -> (forall j, j <> id -> added' j = added j) -> sim name' added' sv' s'.
Proof.
  intros H G0 (A1 & A2 & A3 & A4) (B1 & B2 & B3 & B4 & B5 & B6 & B7 & B8) T AG L AD. destruct H as [H1 H2 H3 H4 H5 H6 H7]. constructor; try congruence.
  - rewrite B3. eauto.
  - rewrite A3. intros i I. rewrite A4. destruct (id =? i); [discriminate|]. apply H6, I.
  - intros i. rewrite A4, B8, B7. destruct (id =? i) eqn:E; [apply Z.eqb_eq in E; subst i; exact T|]. specialize (H7 i). apply Z.eqb_neq in E. rewrite AD by congruence.
    destruct (obj_get _ i), (fobj_get _ i); auto. eapply twin_agree; eauto.
Qed.

(** ** Send on the two sides *)
Definition sent_sobj (o : sobj) : sobj :=
  let n := next_serial (ss_next (so_sess o)) in
  Sobj (Session n (ss_icc (so_sess o)) (ss_reqs (so_sess o))) (so_closed o || so_full o) (so_full o) (so_cb o) (so_ran o).
Lemma sv_send_eq sv id o e sv1 o1 evs : sv_send sv id o e = (sv1, o1, evs) ->
  o1 = sent_sobj o /\ sv1 = set_obj sv id o1 /\
  evs = (if negb (so_closed o) && negb (so_full o) then [SvSend id (fst (session_send (so_sess o) e))] else []) ++ (if negb (so_closed o) && so_full o then [SvShut id] else []).
Proof.
  unfold sv_send, session_send, sent_sobj, with_sess, shut. cbn [fst]. destruct o as [ss c f k r]. cbn [so_sess so_closed so_full so_cb so_ran].
  destruct c, f; cbn [negb andb orb app]; intros E; inversion E; subst; auto.
Qed.
Lemma send_sights_eq name o fo fs id e : goes fo = negb (so_closed o) && negb (so_full o) -> bursts fo = negb (so_closed o) && so_full o -> so_sess o = renamed name fs ->
  send_sights fo fs id e = map LEffect ((if negb (so_closed o) && negb (so_full o) then [SvSend id (fst (session_send (so_sess o) e))] else []) ++ (if negb (so_closed o) && so_full o then [SvShut id] else [])).
Proof.
  intros G B R. unfold send_sights. rewrite G, B, R, map_app. unfold session_send, renamed. cbn [fst ss_next ss_icc]. destruct (_ && negb (so_full o)), (_ && so_full o); reflexivity.
Qed.
Lemma renamed_sent name fs o : so_sess o = renamed name fs -> so_sess (sent_sobj o) = renamed name (Session (next_serial (ss_next fs)) (ss_icc fs) (ss_reqs fs)).
Proof. intros R. unfold sent_sobj. cbn [so_sess]. rewrite R. reflexivity. Qed.

(** ** Update of the timer by the goroutine of a session *)
Lemma timer_steps name s id now cfg k cl fu cb cp t t' fired : fobj_get (fi_objs s) id = Some (Fobj cfg (GClock k) cl fu cb cp) -> fi_tc s = Tcfg t [] fired ->
  timer_update t id now = Ok t' ->
  exists s', does name s [FClock id now; FDel id; FIns id] s' [LEffect (SvRefresh id now)] /\
    moved s s' id (Fobj cfg (go_on k) cl fu cb cp) (Tcfg t' [] fired) (fi_casts s) (fi_toks s).
Proof.
  intros G T U. unfold timer_update in U. destruct (timer_remove t id) as [t1| |] eqn:RM; try discriminate. cbn [bind] in U. injection U as <-.
  set (o := fun p => Fobj cfg p cl fu cb cp).
  set (s1 := set_tc (set_fobj s id (o (GDel k))) (Tcfg t [Ucall id id (deadline t now) false] fired)).
  set (s2 := set_tc (set_fobj s1 id (o (GIns k))) (Tcfg t1 [Ucall id id (deadline t now) true] fired)).
  set (s3 := set_tc (set_fobj s2 id (o (go_on k))) (Tcfg (timer_insert t1 id (deadline t now)) [] fired)).
  assert (E1 : fstep s (FClock id now) = Ok (s1, [XClock id now])) by (cbn [fstep]; rewrite G, T; reflexivity).
  assert (G1 : fobj_get (fi_objs s1) id = Some (o (GDel k))) by (unfold s1; cbn [fi_objs set_tc]; rewrite set_fobj_get, Z.eqb_refl; reflexivity).
  assert (E2 : fstep s1 (FDel id) = Ok (s2, [XDel id])).
  { cbn [fstep]. rewrite G1. cbn [fo_pc o]. cbn [s1 fi_tc set_tc tstep tc_calls tc_timer find_ucall uc_tok]. rewrite Z.eqb_refl, RM. cbn [bind del_ucall uc_tok tc_fired]. rewrite Z.eqb_refl. reflexivity. }
  assert (G2 : fobj_get (fi_objs s2) id = Some (o (GIns k))) by (unfold s2; cbn [fi_objs set_tc]; rewrite set_fobj_get, Z.eqb_refl; reflexivity).
  assert (E3 : fstep s2 (FIns id) = Ok (s3, [XIns id])).
  { cbn [fstep]. rewrite G2. cbn [fo_pc o]. cbn [s2 fi_tc set_tc tstep tc_calls tc_timer find_ucall uc_tok]. rewrite Z.eqb_refl. cbn [bind del_ucall uc_tok tc_fired]. rewrite Z.eqb_refl. reflexivity. }
  exists s3. split.
  - eapply (does_step _ _ _ _ _ [LEffect (SvRefresh id now)] _ _ []); [exact E1|exact Logic.I|reflexivity| |cbn; lia].
    eapply (does_step _ _ _ _ _ [] _ _ []); [exact E2|exact Logic.I|reflexivity| |cbn; lia].
    eapply does_one; [exact E3|exact Logic.I|reflexivity].
  - repeat (split; [reflexivity|]). intros j. unfold s3. cbn [fi_objs set_tc]. rewrite set_fobj_get. destruct (id =? j) eqn:E; [reflexivity|].
    unfold s2. cbn [fi_objs set_tc]. rewrite set_fobj_get, E. unfold s1. cbn [fi_objs set_tc]. rewrite set_fobj_get, E. reflexivity.
Qed.

(** ** A message is passed on *)
Lemma session_message_named name fs m s1 cb : session_message (renamed name fs) m = Ok (s1, cb) ->
  exists fs1 tok, session_message fs m = Ok (fs1, tok) /\ s1 = renamed name fs1 /\ cb = match tok with Some t => Some (name t) | None => None end.
Proof.
  unfold session_message. cbn [renamed ss_icc ss_next ss_reqs]. destruct (reply_serial m) as [n| |]; cbn [bind]; try discriminate. destruct (n =? 0).
  - intros E. inversion E; subst. eexists _, None. repeat split.
  - rewrite take_map. destruct (take_request (ss_reqs fs) n) as [[r|] l]; cbn [fst snd]; intros E; inversion E; subst; [eexists _, (Some _)|eexists _, None]; repeat split.
Qed.
(** session.message in the two steps of Session.v *)
Lemma message_steps fs m log fs1 tok : session_message fs m = Ok (fs1, tok) ->
  exists c log', sstep (SCfg fs [] None log) (SIcc m) = Ok c /\ sstep c STake = Ok (SCfg fs1 [] None log') /\ taken c m = tok.
Proof.
  unfold session_message. cbn [sstep sc_busy sc_sess sc_calls sc_log]. destruct (reply_serial m) as [n| |] eqn:R; cbn [bind]; try discriminate. intros E.
  eexists. assert (T : exists log', (let s := Session (ss_next fs) (if 0 <? h_icc (m_hdr m) then h_icc (m_hdr m) else ss_icc fs) (ss_reqs fs) in
    sstep (SCfg s [] (Some m) log) STake = Ok (SCfg fs1 [] None log') /\ taken (SCfg s [] (Some m) log) m = tok)).
  { cbn zeta. unfold taken. cbn [sstep sc_busy sc_sess sc_calls sc_log ss_next ss_icc ss_reqs]. rewrite R. cbn [bind]. destruct (n =? 0); [inversion E; subst; eauto|].
    destruct (take_request (ss_reqs fs) n) as [[r|] l]; cbn [fst]; inversion E; subst; eauto. }
  destruct T as (log' & T1 & T2). exists log'. split; [reflexivity|]. split; [exact T1|exact T2].
Qed.
Lemma session_message_reqs n fs m fs1 tok : session_message fs m = Ok (fs1, tok) -> Forall (fun r => rq_tok r < n) (ss_reqs fs) ->
  Forall (fun r => rq_tok r < n) (ss_reqs fs1) /\ forall t, tok = Some t -> t < n.
Proof.
  unfold session_message. destruct (reply_serial m) as [k| |]; cbn [bind]; try discriminate. intros E F. destruct (k =? 0); [inversion E; subst; split; [exact F|discriminate]|].
  pose proof (take_rest (ss_reqs fs) k) as TR. pose proof (take_in (ss_reqs fs) k) as TI. destruct (take_request (ss_reqs fs) k) as [[r|] l]; cbn [fst snd] in *; inversion E; subst; cbn [ss_reqs].
  - rewrite Forall_forall in F. split; [apply Forall_forall; intros x I; apply F, TR, I|]. intros t X. injection X as <-. apply F, TI. reflexivity.
  - rewrite Forall_forall in F. split; [apply Forall_forall; intros x I; apply F, TR, I|discriminate].
Qed.
Lemma pass_steps name s id now o m fs log cl fu cb cp sv sv' evs fired :
  fobj_get (fi_objs s) id = Some (Fobj (SCfg fs [] None log) (GIcc m) cl fu cb cp) -> fi_tc s = Tcfg (sv_timer sv) [] fired -> fi_handlers s = sv_handlers sv ->
  so_sess o = renamed name fs -> Forall (fun r => rq_tok r < fi_toks s) (ss_reqs fs) -> message_and_dispatch sv id now o m = Ok (sv', evs) ->
  exists fops s' fs' log', does name s fops s' (map LEffect evs) /\ moved s s' id (Fobj (SCfg fs' [] None log') GRecv cl fu cb cp) (Tcfg (sv_timer sv') [] fired) (fi_casts s) (fi_toks s) /\
    Forall (fun r => rq_tok r < fi_toks s) (ss_reqs fs') /\ smoved sv sv' id (with_sess o (renamed name fs')).
Proof.
  intros G T HH RN F M. unfold message_and_dispatch in M. rewrite RN in M.
  destruct (session_message (renamed name fs) m) as [[s1' cbk]| |] eqn:SM; try discriminate. cbn [bind] in M.
  destruct (session_message_named _ _ _ _ _ SM) as (fs1 & tok & SM1 & -> & ->). clear SM.
  destruct (message_steps fs m log fs1 tok SM1) as (c & log' & C1 & C2 & TK). destruct (session_message_reqs (fi_toks s) _ _ _ _ SM1 F) as [F1 LT].
  set (o1 := fun c p => Fobj c p cl fu cb cp).
  set (s1 := set_fobj s id (o1 c (GTake m))).
  assert (E1 : fstep s (FIcc id) = Ok (s1, [XIcc id m])) by (cbn [fstep]; rewrite G; cbn [fo_pc fo_cfg]; rewrite C1; reflexivity).
  assert (G1 : fobj_get (fi_objs s1) id = Some (o1 c (GTake m))) by (unfold s1; rewrite set_fobj_get, Z.eqb_refl; reflexivity).
  set (c2 := SCfg fs1 [] None log').
  set (s2 := set_fobj s1 id (o1 c2 (match tok with Some _ => GBusy (Some m) | None => GLoad m end))).
  assert (E2 : fstep s1 (FTake id) = Ok (s2, [XTake id m tok])) by (cbn [fstep]; rewrite G1; cbn [fo_pc fo_cfg o1]; rewrite C2; cbn [bind]; rewrite TK; reflexivity).
  assert (G2 : fobj_get (fi_objs s2) id = Some (o1 c2 (match tok with Some _ => GBusy (Some m) | None => GLoad m end))) by (unfold s2; rewrite set_fobj_get, Z.eqb_refl; reflexivity).
  assert (M2 : moved s s2 id (o1 c2 (match tok with Some _ => GBusy (Some m) | None => GLoad m end)) (fi_tc s) (fi_casts s) (fi_toks s)).
  { eapply moved_trans; [apply moved_set|]. exact (moved_set s1 id _). }
  assert (P : exists l s3, does name s2 l s3 [] /\ moved s s3 id (o1 c2 (GLoad m)) (fi_tc s) (fi_casts s) (fi_toks s) /\ fi_toks s3 = fi_toks s).
  { destruct tok as [t|].
    - exists [FReturn id], (set_fobj s2 id (o1 c2 (GLoad m))). split.
      + eapply does_one; [cbn [fstep]; rewrite G2; reflexivity|exact Logic.I|reflexivity].
      + split; [|reflexivity]. eapply moved_trans; [exact M2|]. exact (moved_set s2 id _).
    - exists [], s2. split; [apply does_nil|]. split; [exact M2|reflexivity]. }
  destruct P as (l & s3 & D3 & M3 & K3).
  assert (D : does name s (FIcc id :: FTake id :: l) s3 (map LEffect (match match tok with Some t => Some (name t) | None => None end with Some k => [SvAnswer id k m] | None => [] end))).
  { eapply (does_step _ _ _ _ _ []); [exact E1|exact Logic.I|reflexivity| |rewrite K3; cbn; lia].
    refine (eq_rect _ (fun l0 => does name s1 (FTake id :: l) s3 l0) (does_step _ _ _ _ _ (map LEffect (match match tok with Some t => Some (name t) | None => None end with Some k => [SvAnswer id k m] | None => [] end)) _ _ _ E2 Logic.I _ D3 _) _ (app_nil_r _)); [|rewrite K3; cbn; lia].
    intros nm A. destruct tok as [t|]; [|reflexivity]. cbn. rewrite (A t); [reflexivity|]. cbn. apply LT. reflexivity. }
  clearbody s1 s2. clear E1 E2 G1 G2 M2 D3. pose proof (moved_get _ _ _ _ _ _ _ M3) as G3.
  unfold dispatch in M. cbn [set_obj sv_handlers sv_timer] in M.
  destruct M3 as (X1 & X2 & X3 & X4 & X5 & X6 & X7 & X8).
  assert (M3 : moved s s3 id (o1 c2 (GLoad m)) (fi_tc s) (fi_casts s) (fi_toks s)) by (repeat (split; [assumption|]); assumption).
  destruct (load_handler (sv_handlers sv) (h_id (m_hdr m))) as [h|] eqn:LH.
  - destruct (timer_update (sv_timer sv) id now) as [t'| |] eqn:TU; try discriminate. cbn [bind] in M. inversion M; subst sv' evs; clear M.
    set (s4 := set_fobj s3 id (o1 c2 (GClock (ThenRun h m)))).
    assert (E4 : fstep s3 (FLoad id) = Ok (s4, [XLoad id m (Some h)])) by (cbn [fstep]; rewrite G3; cbn [fo_pc o1]; rewrite X2, HH, LH; reflexivity).
    assert (M4 : moved s s4 id (o1 c2 (GClock (ThenRun h m))) (fi_tc s) (fi_casts s) (fi_toks s)).
    { eapply moved_trans; [exact M3|]. replace (fi_tc s) with (fi_tc s3). replace (fi_casts s) with (fi_casts s3). replace (fi_toks s) with (fi_toks s3). exact (moved_set s3 id _). }
    pose proof (moved_get _ _ _ _ _ _ _ M4) as G4. assert (T4 : fi_tc s4 = Tcfg (sv_timer sv) [] fired) by (cbn; congruence).
    destruct (timer_steps name s4 id now _ _ _ _ _ _ _ _ _ G4 T4 TU) as (s5 & D5 & M5).
    pose proof (moved_get _ _ _ _ _ _ _ M5) as G5. cbn [go_on] in G5.
    set (s6 := set_fobj s5 id (o1 c2 (GBusy None))).
    assert (E6 : fstep s5 (FRun id) = Ok (s6, [XHandle id h m])) by (cbn [fstep]; rewrite G5; reflexivity).
    assert (G6 : fobj_get (fi_objs s6) id = Some (o1 c2 (GBusy None))) by (unfold s6; rewrite set_fobj_get, Z.eqb_refl; reflexivity).
    set (s7 := set_fobj s6 id (o1 c2 GRecv)).
    assert (E7 : fstep s6 (FReturn id) = Ok (s7, [XReturn id])) by (cbn [fstep]; rewrite G6; reflexivity).
    assert (K5 : fi_toks s5 = fi_toks s) by (destruct M5 as (_ & _ & _ & _ & _ & _ & K & _); rewrite K; cbn; congruence).
    exists ((FIcc id :: FTake id :: l) ++ FLoad id :: [FClock id now; FDel id; FIns id] ++ FRun id :: [FReturn id]), s7, fs1, log'. split; [|split; [|split]].
    + rewrite map_app. eapply does_app; [exact D| |cbn; lia].
      eapply (does_step _ _ _ _ _ []); [exact E4|exact Logic.I|reflexivity| |cbn; lia].
      refine (does_app _ _ _ _ [LEffect (SvRefresh id now)] _ _ ([LEffect (SvHandle id h m)] ++ []) D5 _ _); [|cbn; lia]. eapply does_step; [exact E6|exact Logic.I|reflexivity| |cbn; lia]. eapply does_one; [exact E7|exact Logic.I|reflexivity].
    + cbn [set_timer sv_timer]. eapply moved_trans; [exact M4|]. replace (fi_casts s) with (fi_casts s4) by (cbn; congruence). replace (fi_toks s) with (fi_toks s4) by (cbn; congruence).
      eapply moved_trans; [exact M5|]. destruct M5 as (Y1 & Y2 & Y3 & Y4 & Y5 & Y6 & Y7 & Y8). rewrite <- Y6, <- Y7, <- Y3. eapply moved_trans; [exact (moved_set s5 id _)|]. exact (moved_set s6 id _).
    + exact F1.
    + apply smoved_timer, smoved_set.
  - cbn [bind] in M. inversion M; subst sv' evs; clear M. rewrite app_nil_r.
    exists ((FIcc id :: FTake id :: l) ++ [FLoad id]), (set_fobj s3 id (o1 c2 GRecv)), fs1, log'. split; [|split; [|split]].
    + rewrite <- (app_nil_r (map _ _)). eapply does_app; [exact D| |cbn; lia]. eapply does_one; [cbn [fstep]; rewrite G3; cbn [fo_pc o1]; rewrite X2, HH, LH; reflexivity|exact Logic.I|reflexivity].
    + cbn [set_obj sv_timer]. rewrite <- T. eapply moved_trans; [exact M3|]. rewrite <- X3, <- X6, <- X7. exact (moved_set s3 id _).
    + exact F1.
    + apply smoved_set.
Qed.
