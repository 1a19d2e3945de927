(** Every history of Server.v is one of Fine.v: the other steps, and histories. *)
From Verif Require Import Base LibBase Bits Env EntTerm EntPlat Registry Message Timer Session Multipart Server Fine.
From Verif Require Import SpecSession SpecTimer SpecServer SpecFine SpecSim ProofServer ProofFine ProofWorld2 ProofSim ProofSim2 ProofSim3.

Lemma sim_tick name added sv s x : sim name added sv s -> sim name added sv (set_tick s x).
Proof. intros [H1 H2 H3 H4 H5 H6 H7]. constructor; assumption. Qed.
Lemma sim_casts name added sv s x : sim name added sv s -> sim name added sv (set_casts s x).
Proof. intros [H1 H2 H3 H4 H5 H6 H7]. constructor; assumption. Qed.
Lemma sim_count name added sv s : sim name added sv s -> sim name added sv (count_tok s).
Proof.
  intros [H1 H2 H3 H4 H5 H6 H7]. constructor; try assumption. intros i. specialize (H7 i). cbn [count_tok fi_objs fi_toks]. destruct (obj_get _ i), (fobj_get _ i); auto.
  eapply twin_agree; [exact H7|intros t _; reflexivity|lia].
Qed.
Lemma agree_refl n f : agree n f f.
Proof. intros t _. reflexivity. Qed.

(** ** Close *)
Lemma close_steps name added sv s id sv' evs so : sim name added sv s -> obj_get (sv_objs sv) id = Some so -> close_session sv id = (sv', evs) ->
  exists fo s' fevs, fobj_get (fi_objs s) id = Some fo /\ (forall x, fclose (set_tick s x) id fo = (set_tick s' x, fevs)) /\ fclose s id fo = (s', fevs) /\ sim name added sv' s' /\
    (forall nm, flat_map (sight_of nm) fevs = map LEffect evs) /\ fi_tick s' = fi_tick s /\ fi_casts s' = fi_casts s /\ fi_toks s' = fi_toks s.
Proof.
  intros SM G C. destruct (sim_get _ _ _ _ _ _ SM G) as (fo & GF & T). pose proof T as (fs & log & E & R & F & AD). unfold close_session in C. rewrite G in C.
  assert (FC : fo_closed fo = so_closed so) by (rewrite E; reflexivity). destruct (so_closed so) eqn:CL; inversion C; subst sv' evs; clear C.
  - exists fo, s, []. split; [exact GF|]. split; [intros x; unfold fclose; rewrite FC; reflexivity|]. split; [unfold fclose; rewrite FC; reflexivity|]. split; [exact SM|]. repeat split.
  - exists fo, (set_fobj s id (fshut fo)), [XShut id]. split; [exact GF|]. split; [intros x; unfold fclose; rewrite FC; reflexivity|]. split; [unfold fclose; rewrite FC; reflexivity|]. split; [|repeat split].
    destruct (sm_tc _ _ _ _ SM) as (fired & TC).
    eapply (sim_moved name name added added sv _ s _ id (shut so) so (fshut fo) fired); [exact SM|exact G|apply smoved_set|cbn [set_obj sv_timer]; rewrite <- TC; apply moved_set| |apply agree_refl|lia|reflexivity].
    exists fs, log. rewrite E. split; [reflexivity|]. split; [exact R|]. split; [exact F|exact AD].
Qed.

(** ** A tick *)
Lemma tick_loop name added ids : forall sv s sv' evs, sim name added sv s -> fi_tick s = TKeys ids -> fi_casts s = [] -> timeouts_loop sv ids = (sv', evs) ->
  exists fops s', does name s fops s' (map LEffect evs) /\ sim name added sv' s' /\ quiet s' /\ fi_toks s' = fi_toks s.
Proof.
  induction ids as [|id ids IH]; intros sv s sv' evs SM TI CA T; cbn [timeouts_loop] in T.
  - inversion T; subst. exists [], s. split; [apply does_nil|]. repeat (split; [first [assumption|reflexivity]|]). split; [split; assumption|reflexivity].
  - destruct (handle_read_timeout sv id) as [sv1 e1] eqn:H1. destruct (timeouts_loop sv1 ids) as [sv2 e2] eqn:H2. inversion T; subst sv2 evs; clear T.
    assert (S : exists l s1, does name s l s1 (map LEffect e1) /\ sim name added sv1 s1 /\ fi_tick s1 = TKeys ids /\ fi_casts s1 = [] /\ fi_toks s1 = fi_toks s).
    { unfold handle_read_timeout, get_session in H1. rewrite <- (sm_reg _ _ _ _ SM) in H1.
      set (s0 := set_tick s (if mem (fi_reg s) id then TFound id ids else TKeys ids)).
      assert (E0 : fstep s FGet = Ok (s0, [XGet id (mem (fi_reg s) id)])) by (cbn [fstep]; rewrite TI; reflexivity).
      assert (D0 : does name s [FGet] s0 []) by (eapply does_one; [exact E0|exact Logic.I|reflexivity]).
      destruct (mem (fi_reg s) id) eqn:ME.
      - assert (I : In id (sv_reg sv)). { rewrite <- (sm_reg _ _ _ _ SM). unfold mem in ME. apply existsb_exists in ME. destruct ME as (y & I & Y). apply Z.eqb_eq in Y. subst y. exact I. }
        destruct (obj_get (sv_objs sv) id) as [so|] eqn:G; [|destruct (sm_in _ _ _ _ SM _ I G)].
        destruct (close_steps name added sv s id sv1 e1 so SM G H1) as (fo & s1 & fevs & GF & FX & _ & SM1 & SI & TI1 & CA1 & TK1).
        assert (E1 : fstep s0 FTimeout = Ok (set_tick s1 (TKeys ids), XTimeout id :: fevs)).
        { cbn [fstep s0 set_tick fi_tick fi_objs]. rewrite GF. change (set_tick s0 (TKeys ids)) with (set_tick s (TKeys ids)). rewrite FX. reflexivity. }
        exists ([FGet] ++ [FTimeout]), (set_tick s1 (TKeys ids)). split; [|split; [apply sim_tick, SM1|split; [reflexivity|split; [cbn; congruence|exact TK1]]]].
        refine (does_app _ _ _ _ [] _ _ _ D0 _ _); [|cbn; lia]. eapply does_one; [exact E1|exact Logic.I|]. intros nm _. cbn. apply SI.
      - inversion H1; subst sv1 e1. exists [FGet], s0. split; [exact D0|]. split; [apply sim_tick, SM|]. split; [reflexivity|]. split; [exact CA|reflexivity]. }
    destruct S as (l & s1 & D1 & SM1 & TI1 & CA1 & TK1). destruct (IH _ _ _ _ SM1 TI1 CA1 H2) as (l2 & s2 & D2 & SM2 & Q2 & TK2).
    exists (l ++ l2), s2. split; [rewrite map_app; eapply does_app; eauto; lia|]. split; [exact SM2|]. split; [exact Q2|congruence].
Qed.

(** ** Broadcast *)
Lemma remove_head a l : NoDup (a :: l) -> remove Z.eq_dec a (a :: l) = l.
Proof. intros N. inversion N; subst. cbn. destruct (Z.eq_dec a a); [|congruence]. apply notin_remove. assumption. Qed.
Lemma cast_loop name added b e ids : forall sv s n sv' evs, sim name added sv s -> NoDup ids -> (forall i, In i ids -> obj_get (sv_objs sv) i <> None) ->
  fi_tick s = TKeys [] -> fi_casts s = [(b, Cast e ids None n)] -> broadcast_loop sv ids e = (sv', evs) ->
  exists fops s', does name s fops s' (map LEffect evs) /\ sim name added sv' s' /\ fi_tick s' = TKeys [] /\ fi_casts s' = [(b, Cast e [] None (n + zlen (filter is_send evs)))] /\ fi_toks s <= fi_toks s'.
Proof.
  induction ids as [|id ids IH]; intros sv s n sv' evs SM ND IO TI CA B; cbn [broadcast_loop] in B.
  - inversion B; subst. exists [], s. split; [apply does_nil|]. split; [exact SM|]. split; [exact TI|]. split; [|lia]. rewrite CA. cbn. rewrite Z.add_0_r. reflexivity.
  - destruct (obj_get (sv_objs sv) id) as [so|] eqn:G; [|destruct (IO id (or_introl eq_refl) G)].
    destruct (sv_send sv id so e) as [[sv1 o1] e1] eqn:SS. destruct (broadcast_loop sv1 ids e) as [sv2 e2] eqn:B2. inversion B; subst sv2 evs; clear B.
    destruct (sv_send_eq _ _ _ _ _ _ _ SS) as (-> & -> & E1). clear SS. fold (send_effects so id e) in E1.
    destruct (sim_get _ _ _ _ _ _ SM G) as (fo & GF & (fs & log & EF & R & F & AD)). destruct (sm_tc _ _ _ _ SM) as (fired & TC).
    set (tok := fi_toks s). set (pc := if added id then GRecv else GAddCb) in EF. set (cp := if so_ran so then COver else CNot) in EF.
    set (cfg := SCfg fs [Call tok false e (ss_icc fs) None false] None log). set (fo1 := Fobj cfg pc (so_closed so) (so_full so) (so_cb so) cp).
    set (casts1 := [(b, Cast e ids (Some (id, tok)) n)]). set (s1 := set_casts (set_fobj (count_tok s) id fo1) casts1).
    assert (X1 : fstep s (FCastNext b id) = Ok (s1, [XCastTo b id tok e])).
    { cbn [fstep]. rewrite CA. cbn [cast_get]. rewrite Z.eqb_refl. cbn [mem existsb]. rewrite Z.eqb_refl. cbn [orb]. rewrite GF, EF, remove_head by exact ND. cbn [cast_set]. rewrite Z.eqb_refl. reflexivity. }
    assert (M1 : moved s s1 id fo1 (fi_tc s) casts1 (fi_toks s + 1)) by (repeat (split; [reflexivity|]); intros j; exact (set_fobj_get (count_tok s) id fo1 j)).
    destruct (rest_of_send name s s1 id cfg _ so cp fs false e log tok casts1 _ (moved_get _ _ _ _ _ _ _ M1) eq_refl R M1) as (s2 & log2 & D2 & M2).
    rewrite andb_false_r, TC in M2. replace (pc_after pc tok) with pc in M2 by (unfold pc; destruct (added id); reflexivity).
    assert (SM2 : sim name added (set_obj sv id (sent_sobj so)) s2).
    { eapply (sim_moved name name added added sv); [exact SM|exact G|apply smoved_set|exact M2| |apply agree_refl|lia|reflexivity].
      exists (bumped fs), log2. split; [reflexivity|]. split; [apply renamed_sent, R|]. split; [eapply forall_le; [exact F|lia]|exact AD]. }
    assert (K2 : fi_toks s2 = fi_toks s + 1) by apply M2.
    assert (C2 : fi_casts s2 = [(b, Cast e ids None (n + zlen (filter is_send e1)))]).
    { destruct M2 as (_ & _ & _ & _ & _ & C2 & _). rewrite C2. unfold casts1. cbn [map cast_returned ca_cur ca_ent ca_left ca_count]. rewrite Z.eqb_refl.
      rewrite E1. unfold send_effects. destruct (so_closed so), (so_full so); reflexivity. }
    assert (D : does name s ([FCastNext b id] ++ [FNext id tok; FWire id tok]) s2 (map LEffect e1)).
    { rewrite E1. refine (does_step _ _ _ _ _ [] _ _ _ X1 Logic.I _ D2 _); [reflexivity|]. rewrite K2. cbn. lia. }
    destruct (IH (set_obj sv id (sent_sobj so)) s2 (n + zlen (filter is_send e1)) sv' e2 SM2) as (l & s3 & D3 & SM3 & TI3 & C3 & K3).
    { inversion ND; assumption. }
    { intros i I. cbn [set_obj sv_objs]. rewrite obj_get_set. destruct (id =? i); [discriminate|]. apply IO. right. exact I. }
    { destruct M2 as (_ & _ & _ & _ & T2 & _). congruence. }
    { exact C2. }
    { exact B2. }
    eexists _, s3. split; [rewrite map_app; eapply does_app; [exact D|exact D3|lia]|]. split; [exact SM3|]. split; [exact TI3|]. split; [|lia].
    rewrite C3, filter_app. unfold zlen. rewrite app_length, Nat2Z.inj_add, Z.add_assoc. reflexivity.
Qed.

(** ** One operation *)
Definition added_by (op : sv_op) (added : Z -> bool) : Z -> bool := match op with OAddCb id => fun i => (i =? id) || added i | _ => added end.
Definition ready (sv : server) (added : Z -> bool) (op : sv_op) : Prop :=
  match op with
  | OConnect id _ => obj_get (sv_objs sv) id = None /\ added id = false
  | OAddCb id => obj_get (sv_objs sv) id <> None /\ added id = false
  | ODeliver id _ m => obj_get (sv_objs sv) id <> None /\ added id = true /\ received m
  | OSendTo id _ | ORequest id _ _ => obj_get (sv_objs sv) id <> None
  | _ => True
  end.
Definition simulated (name : Z -> Z) (added : Z -> bool) (s : fine) (op : sv_op) (sv' : server) (evs : list sv_event) : Prop :=
  exists fops s' name', does name' s fops s' (sight_of_op op ++ map LEffect evs) /\ sim name' (added_by op added) sv' s' /\ quiet s' /\ agree (fi_toks s) name name' /\ fi_toks s <= fi_toks s'.
Lemma step_simulated name added sv s op sv' evs : sim name added sv s -> quiet s -> ready sv added op -> sv_step sv op = Ok (sv', evs) -> simulated name added s op sv' evs.
Proof.
  intros SM Q RD ST. pose proof Q as [QT QC]. destruct (sm_tc _ _ _ _ SM) as (fired & TC).
  destruct op as [id now|id|id now m|id|id|now|e|id e|id tok e|msgid h|id b]; cbn [sv_step ready] in *.
  - (* OConnect *)
    destruct RD as [GN AN]. pose proof (sim_none _ _ _ _ _ SM GN) as FN. cbn [set_obj set_reg sv_timer sv_reg] in ST.
    destruct (timer_update (sv_timer sv) id now) as [t'| |] eqn:TU; try discriminate. cbn [bind] in ST. inversion ST; subst sv' evs; clear ST.
    set (fo := fun p => Fobj sinit p false false false CNot).
    set (s1 := set_freg (set_fobj s id (fo (GClock ThenAddCb))) (id :: fi_reg s)).
    assert (E1 : fstep s (FConnect id) = Ok (s1, [XConnect id])) by (cbn [fstep]; rewrite FN; reflexivity).
    assert (G1 : fobj_get (fi_objs s1) id = Some (fo (GClock ThenAddCb))) by (unfold s1; cbn [set_freg fi_objs]; rewrite set_fobj_get, Z.eqb_refl; reflexivity).
    destruct (timer_steps name s1 id now sinit ThenAddCb false false false CNot (sv_timer sv) t' fired G1 TC TU) as (s2 & D2 & M2).
    destruct M2 as (X1 & X2 & X3 & X4 & X5 & X6 & X7 & X8). cbn in X1, X2, X4, X5, X6, X7.
    eexists _, s2, name. split; [|split; [|split; [split; congruence|split; [apply agree_refl|lia]]]].
    + refine (does_step _ _ _ _ _ [LConnect id] _ _ [LEffect (SvRefresh id now)] E1 Logic.I _ D2 _); [reflexivity|]. rewrite X7. cbn. lia.
    + destruct SM as [H1 H2 H3 H4 H5 H6 H7]. constructor; cbn [set_timer set_reg set_obj sv_auto sv_handlers sv_reg sv_timer sv_objs].
      * congruence.
      * congruence.
      * congruence.
      * rewrite X3. eauto.
      * constructor; [|exact H5]. intros I. exact (H6 _ I GN).
      * intros i I. rewrite obj_get_set. destruct (id =? i) eqn:E; [discriminate|]. destruct I as [-> |I]; [rewrite Z.eqb_refl in E; discriminate|]. apply H6, I.
      * intros i. rewrite obj_get_set, X8, X7. destruct (id =? i) eqn:E.
        -- apply Z.eqb_eq in E. subst i. cbn [added_by]. rewrite AN. exists new_session, []. repeat split. constructor.
        -- unfold s1. cbn [set_freg fi_objs]. rewrite set_fobj_get, E. exact (H7 i).
  - (* OAddCb *)
    destruct RD as [GN AN]. destruct (obj_get (sv_objs sv) id) as [so|] eqn:G; [clear GN|congruence].
    destruct (sim_get _ _ _ _ _ _ SM G) as (fo & GF & (fs & log & E & R & F & CB)). rewrite AN in E. specialize (CB AN).
    set (fo1 := Fobj (SCfg fs [] None log) GRecv (so_closed so) (so_full so) (negb (so_closed so)) (if so_ran so then COver else CNot)).
    assert (E1 : fstep s (FAddCb id) = Ok (set_fobj s id fo1, [XAddCb id (negb (so_closed so))])) by (cbn [fstep]; rewrite GF, E; reflexivity).
    set (so1 := Sobj (so_sess so) (so_closed so) (so_full so) (negb (so_closed so)) (so_ran so)).
    assert (V : sv_auto sv' = sv_auto sv /\ sv_timer sv' = sv_timer sv /\ smoved sv sv' id so1 /\ evs = []).
    { inversion ST; subst evs sv'. unfold so1. destruct (so_closed so) eqn:CL.
      - split; [reflexivity|]. split; [reflexivity|]. split; [|reflexivity]. repeat (split; [reflexivity|]). intros j. destruct (id =? j) eqn:EJ; [|reflexivity]. apply Z.eqb_eq in EJ. subst j. rewrite G. destruct so. cbn in *. subst. reflexivity.
      - split; [reflexivity|]. split; [reflexivity|]. split; [|reflexivity]. apply smoved_set. }
    destruct V as (_ & V1 & V2 & ->).
    exists [FAddCb id], (set_fobj s id fo1), name. split; [|split; [|split; [exact Q|split; [apply agree_refl|cbn; lia]]]].
    + eapply does_one; [exact E1|exact Logic.I|reflexivity].
    + eapply (sim_moved name name added _ sv sv' s _ id so1 so fo1 fired); [exact SM|exact G|exact V2|rewrite V1, <- TC; apply moved_set| |apply agree_refl|lia|].
      * cbn [added_by]. rewrite Z.eqb_refl. cbn [orb]. exists fs, log. split; [reflexivity|]. split; [exact R|]. split; [exact F|discriminate].
      * intros j NE. cbn [added_by]. replace (j =? id) with false by lia. reflexivity.
  - (* ODeliver *)
    destruct RD as (GN & AN & RC). destruct (obj_get (sv_objs sv) id) as [so|] eqn:G; [clear GN|congruence].
    destruct (deliver_steps name added sv s id now so m SM Q G AN RC sv' evs ST) as (fops & s' & D & SM' & Q' & L). exists fops, s', name. auto using agree_refl.
  - (* OClose *)
    destruct (close_session sv id) as [sv1 e1] eqn:CS. inversion ST; subst sv1 e1; clear ST. destruct (obj_get (sv_objs sv) id) as [so|] eqn:G.
    + destruct (close_steps name added sv s id sv' evs so SM G CS) as (fo & s1 & fevs & GF & _ & FX & SM1 & SI & TI1 & CA1 & TK1).
      exists [FShut id], s1, name. split; [|split; [exact SM1|split; [split; congruence|split; [apply agree_refl|lia]]]].
      eapply does_one; [cbn [fstep]; rewrite GF, FX; reflexivity|exact Logic.I|]. intros nm _. apply SI.
    + unfold close_session in CS. rewrite G in CS. inversion CS; subst. exists [], s, name. split; [apply does_nil|]. split; [exact SM|]. split; [exact Q|]. split; [apply agree_refl|lia].
  - (* ORunClose *)
    assert (NO : sv' = sv -> evs = [] -> simulated name added s (ORunClose id) sv' evs).
    { intros -> ->. exists [], s, name. split; [apply does_nil|]. split; [exact SM|]. split; [exact Q|]. split; [apply agree_refl|lia]. }
    destruct (obj_get (sv_objs sv) id) as [so|] eqn:G; [|apply NO; congruence]. destruct (so_closed so && so_cb so && negb (so_ran so)) eqn:CO; [|apply NO; congruence].
    clear NO. apply andb_true_iff in CO. destruct CO as [CO RN]. apply andb_true_iff in CO. destruct CO as [CL CB]. apply negb_true_iff in RN.
    unfold handle_close in ST. cbn [set_obj set_reg sv_timer sv_reg] in ST. destruct (timer_remove (sv_timer sv) id) as [t'| |] eqn:TR; try discriminate. cbn [bind] in ST. inversion ST; subst sv' evs; clear ST.
    destruct (sim_get _ _ _ _ _ _ SM G) as (fo & GF & (fs & log & E & R & F & AD)). rewrite CL, CB, RN in E.
    set (pc := if added id then GRecv else GAddCb) in E. set (fo1 := fun p => Fobj (SCfg fs [] None log) pc true (so_full so) true p).
    set (reg1 := filter (fun i => negb (i =? id)) (fi_reg s)).
    set (s1 := set_freg (set_fobj s id (fo1 CTimer)) reg1).
    assert (E1 : fstep s (FGone id) = Ok (s1, [XGone id])) by (cbn [fstep]; rewrite GF, E; reflexivity).
    assert (G1 : fobj_get (fi_objs s1) id = Some (fo1 CTimer)) by (unfold s1; cbn [set_freg fi_objs]; rewrite set_fobj_get, Z.eqb_refl; reflexivity).
    set (s2 := set_tc (set_fobj s1 id (fo1 CHandler)) (Tcfg t' [] fired)).
    assert (E2 : fstep s1 (FRemove id) = Ok (s2, [XRemove id])) by (cbn [fstep]; rewrite G1; cbn [fo_close fo1]; change (fi_tc s1) with (fi_tc s); rewrite TC; cbn [tstep tc_timer]; rewrite TR; reflexivity).
    assert (G2 : fobj_get (fi_objs s2) id = Some (fo1 CHandler)) by (unfold s2; cbn [set_tc fi_objs]; rewrite set_fobj_get, Z.eqb_refl; reflexivity).
    set (s3 := set_fobj s2 id (fo1 COver)).
    assert (E3 : fstep s2 (FClosed id) = Ok (s3, [XClosed id])) by (cbn [fstep]; rewrite G2; reflexivity).
    exists [FGone id; FRemove id; FClosed id], s3, name. split; [|split; [|split; [exact Q|split; [apply agree_refl|cbn; lia]]]].
    + refine (does_step _ _ _ _ _ [] _ _ _ E1 Logic.I _ _ _); [reflexivity| |cbn; lia]. refine (does_step _ _ _ _ _ [] _ _ _ E2 Logic.I _ _ _); [reflexivity| |cbn; lia].
      eapply does_one; [exact E3|exact Logic.I|reflexivity].
    + destruct SM as [H1 H2 H3 H4 H5 H6 H7]. constructor; cbn [set_timer set_reg set_obj sv_auto sv_handlers sv_reg sv_timer sv_objs added_by].
      * exact H1.
      * exact H2.
      * cbn. unfold reg1. rewrite H3. reflexivity.
      * cbn. eauto.
      * apply NoDup_filter, H5.
      * intros i I. apply filter_In in I. rewrite obj_get_set. destruct (id =? i); [discriminate|]. apply H6, I.
      * intros i. rewrite obj_get_set. unfold s3. rewrite set_fobj_get. destruct (id =? i) eqn:EI.
        -- apply Z.eqb_eq in EI. subst i. exists fs, log. split; [reflexivity|]. split; [exact R|]. split; [exact F|]. intros A. specialize (AD A). congruence.
        -- unfold s2. cbn [set_tc fi_objs]. rewrite set_fobj_get, EI. unfold s1. cbn [set_freg fi_objs]. rewrite set_fobj_get, EI. exact (H7 i).
  - (* OTick *)
    destruct (timer_check (sv_timer sv) now) as [[t' keys]| |] eqn:TK; try discriminate. cbn [bind] in ST. inversion ST as [ST1]; clear ST.
    set (s1 := set_tick (set_tc s (Tcfg t' [] ((now, keys) :: fired))) (TKeys keys)).
    assert (E1 : fstep s (FTick now) = Ok (s1, [XTick now keys])) by (cbn [fstep]; rewrite QT, TC; cbn [tstep tc_timer]; rewrite TK; reflexivity).
    assert (SM1 : sim name added (set_timer sv t') s1).
    { destruct SM as [H1 H2 H3 H4 H5 H6 H7]. constructor; try assumption. cbn. eauto. }
    destruct (tick_loop name added keys _ s1 sv' evs SM1 eq_refl QC ST1) as (l & s2 & D2 & SM2 & Q2 & K2). cbn in K2.
    exists (FTick now :: l), s2, name. split; [|split; [exact SM2|split; [exact Q2|split; [apply agree_refl|lia]]]].
    refine (does_step _ _ _ _ _ [LTick now] _ _ _ E1 Logic.I _ D2 _); [reflexivity|]. cbn. lia.
  - (* OBroadcast *)
    destruct (broadcast_loop sv (sv_reg sv) e) as [sv1 e1] eqn:B. inversion ST; subst sv1 evs; clear ST. set (b := fi_toks s).
    set (s1 := set_casts (count_tok s) [(b, Cast e (fi_reg s) None 0)]).
    assert (E1 : fstep s (FCast e) = Ok (s1, [XCast b e (fi_reg s)])) by (cbn [fstep]; rewrite QC; reflexivity).
    assert (SM1 : sim name added sv s1) by (apply sim_casts, sim_count, SM).
    destruct (cast_loop name added b e (sv_reg sv) sv s1 0 sv' e1 SM1) as (l & s2 & D2 & SM2 & T2 & C2 & K2).
    { exact (sm_nodup _ _ _ _ SM). }
    { exact (sm_in _ _ _ _ SM). }
    { exact QT. }
    { unfold s1. cbn. rewrite (sm_reg _ _ _ _ SM). reflexivity. }
    { exact B. }
    assert (E3 : fstep s2 (FCastEnd b) = Ok (set_casts s2 [], [XCount b (zlen (filter is_send e1))])).
    { cbn [fstep]. rewrite C2. cbn [cast_get]. rewrite Z.eqb_refl. cbn [cast_del filter fst negb]. rewrite Z.eqb_refl. reflexivity. }
    change (fi_toks s1) with (fi_toks s + 1) in K2.
    exists ((FCast e :: l) ++ [FCastEnd b]), (set_casts s2 []), name. split; [|split; [apply sim_casts, SM2|split; [split; [exact T2|reflexivity]|split; [apply agree_refl|cbn; lia]]]].
    rewrite map_app, app_assoc. eapply (does_app _ _ _ s2); [| |cbn; lia].
    + refine (does_step _ _ _ _ _ [LBroadcast e] _ _ _ E1 Logic.I _ D2 _); [reflexivity|]. cbn. lia.
    + eapply does_one; [exact E3|exact Logic.I|reflexivity].
  - (* OSendTo *)
    destruct (obj_get (sv_objs sv) id) as [so|] eqn:G; [clear RD|congruence]. destruct (sv_send sv id so e) as [[sv1 o1] e1] eqn:SS. inversion ST; subst sv1 e1; clear ST.
    destruct (sv_send_eq _ _ _ _ _ _ _ SS) as (-> & -> & ->). clear SS. fold (send_effects so id e).
    destruct (sim_get _ _ _ _ _ _ SM G) as (fo & GF & (fs & log & EF & R & F & AD)). subst fo.
    destruct (start_steps name s id so _ fs log false e _ GF R QC) as (s1 & log1 & D1 & M1); [destruct (added id); auto|]. rewrite andb_false_r, TC in M1.
    assert (K1 : fi_toks s1 = fi_toks s + 1) by apply M1.
    eexists _, s1, name. split; [exact D1|]. split; [|split; [eapply moved_quiet; eauto|split; [apply agree_refl|lia]]].
    eapply (sim_moved name name added added sv); [exact SM|exact G|apply smoved_set|exact M1| |apply agree_refl|lia|reflexivity].
    exists (bumped fs), log1. split; [reflexivity|]. split; [apply renamed_sent, R|]. split; [eapply forall_le; [exact F|lia]|exact AD].
  - (* ORequest *)
    destruct (obj_get (sv_objs sv) id) as [so|] eqn:G; [clear RD|congruence]. inversion ST as [SR]; clear ST. unfold sv_request in SR. destruct (sv_send sv id so e) as [[sv1 o1] e1] eqn:SS.
    destruct (sv_send_eq _ _ _ _ _ _ _ SS) as (-> & -> & E1). clear SS. fold (send_effects so id e) in E1.
    set (name1 := fun t => if t =? fi_toks s then tok else name t).
    assert (AG : agree (fi_toks s) name name1) by (intros t L; unfold name1; replace (t =? fi_toks s) with false by lia; reflexivity).
    destruct (sim_get _ _ _ _ _ _ SM G) as (fo & GF & (fs & log & EF & R & F & AD)). subst fo. rewrite <- (renamed_agree _ _ _ _ AG F) in R.
    destruct (start_steps name1 s id so _ fs log true e _ GF R QC) as (s1 & log1 & D1 & M1); [destruct (added id); auto|]. rewrite andb_true_r, TC in M1.
    assert (K1 : fi_toks s1 = fi_toks s + 1) by apply M1. assert (NT : name1 (fi_toks s) = tok) by (unfold name1; rewrite Z.eqb_refl; reflexivity). rewrite NT in D1.
    destruct (negb (so_closed so) && negb (so_full so)) eqn:GO.
    + assert (E2 : e1 = [SvSend id (fst (session_send (so_sess so) e))]).
      { rewrite E1. unfold send_effects. rewrite GO. destruct (so_closed so), (so_full so); try discriminate. reflexivity. }
      rewrite E2 in SR. inversion SR; subst sv' evs; clear SR.
      set (n := next_serial (ss_next fs)) in M1. set (tk := fi_toks s) in M1.
      set (pc := if added id then GRecv else GAddCb) in M1. set (cp := if so_ran so then COver else CNot) in M1.
      set (fs2 := Session n (ss_icc fs) (add_request (ss_reqs fs) (Request (entity_id e) n tk))).
      set (fo2 := Fobj (SCfg fs2 [] None log1) pc (so_closed so || so_full so) (so_full so) (so_cb so) cp).
      set (s2 := set_fobj s1 id fo2).
      assert (E3 : fstep s1 (FAdd id tk) = Ok (s2, [XAdd id tk])).
      { cbn [fstep]. rewrite (moved_get _ _ _ _ _ _ _ M1). cbn [fo_cfg sc_calls find_call cl_tok]. rewrite Z.eqb_refl. cbn [sstep sc_calls find_call cl_tok]. rewrite Z.eqb_refl. cbn [bind del_call cl_tok sc_sess sc_busy sc_log]. rewrite Z.eqb_refl. reflexivity. }
      assert (M2 : moved s s2 id fo2 (Tcfg (sv_timer sv) [] fired) [] (tk + 1)).
      { eapply moved_trans; [exact M1|]. destruct M1 as (X1 & X2 & X3 & X4 & X5 & X6 & X7 & X8). rewrite <- X3, <- X6, <- X7. apply moved_set. }
      exists ([FStart id true e; FNext id (fi_toks s); FWire id (fi_toks s)] ++ [FAdd id tk]), s2, name1. split; [|split; [|split; [eapply moved_quiet; eauto|split; [exact AG|cbn; lia]]]].
      * rewrite <- (app_nil_r (sight_of_op _ ++ _)). eapply does_app; [|eapply does_one; [exact E3|exact Logic.I|reflexivity]|cbn; lia].
        rewrite <- E1, E2 in D1. exact D1.
      * eapply (sim_moved name name1 added added sv); [exact SM|exact G| |exact M2| |exact AG|lia|reflexivity].
        -- eapply smoved_trans; [apply smoved_set|apply smoved_set].
        -- exists fs2, log1. split; [reflexivity|]. split.
           ++ unfold with_sess, sent_sobj, renamed, fs2. cbn [so_sess ss_next ss_icc ss_reqs]. rewrite R. cbn [renamed ss_next ss_icc ss_reqs session_send fst m_hdr h_serial].
              rewrite <- add_map. replace (named name1 (Request (entity_id e) n tk)) with (Request (entity_id e) n tok) by (unfold named; cbn [rq_msgid rq_serial rq_tok]; rewrite <- NT; reflexivity). reflexivity.
           ++ split; [|exact AD]. cbn [fs2 ss_reqs]. apply Forall_forall. intros x I. apply add_in in I. destruct I as [-> |I]; [cbn; unfold tk; lia|]. rewrite Forall_forall in F. specialize (F x I). lia.
    + assert (E2 : (set_obj sv id (sent_sobj so), e1) = (sv', evs)).
      { rewrite <- SR, E1. unfold send_effects. rewrite GO. destruct (negb (so_closed so) && so_full so); reflexivity. }
      inversion E2; subst sv' evs. eexists _, s1, name1. split; [rewrite E1; exact D1|]. split; [|split; [eapply moved_quiet; eauto|split; [exact AG|lia]]].
      eapply (sim_moved name name1 added added sv); [exact SM|exact G|apply smoved_set|exact M1| |exact AG|lia|reflexivity].
      exists (bumped fs), log1. split; [reflexivity|]. split; [apply renamed_sent, R|]. split; [eapply forall_le; [exact F|lia]|exact AD].
  - (* OAddHandler *)
    inversion ST; subst sv' evs; clear ST. eexists [FHandler msgid h], _, name. split; [eapply does_one; [reflexivity|exact Logic.I|reflexivity]|].
    split; [|split; [exact Q|split; [apply agree_refl|cbn; lia]]]. destruct SM as [H1 H2 H3 H4 H5 H6 H7]. constructor; try assumption. cbn. congruence.
  - (* OQueue *)
    destruct (obj_get (sv_objs sv) id) as [so|] eqn:G; inversion ST; subst sv' evs; clear ST.
    + destruct (sim_get _ _ _ _ _ _ SM G) as (fo & GF & (fs & log & EF & R & F & AD)).
      eexists [FQueue id b], _, name. split; [eapply does_one; [cbn [fstep]; rewrite GF; reflexivity|exact Logic.I|reflexivity]|]. split; [|split; [exact Q|split; [apply agree_refl|cbn; lia]]].
      eapply (sim_moved name name added added sv _ s _ id _ so _ fired); [exact SM|exact G|apply smoved_set|cbn [set_obj sv_timer]; rewrite <- TC; apply moved_set| |apply agree_refl|lia|reflexivity].
      exists fs, log. rewrite EF. split; [reflexivity|]. split; [exact R|]. split; [exact F|exact AD].
    + exists [], s, name. split; [apply does_nil|]. split; [exact SM|]. split; [exact Q|]. split; [apply agree_refl|lia].
Qed.
