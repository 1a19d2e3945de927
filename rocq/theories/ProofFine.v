(** The steps of Fine.v as a relation, and what every step keeps. *)
From Verif Require Import Base LibBase Env EntTerm EntPlat Registry Message Timer Session Server Fine.
From Verif Require Import SpecSession SpecTimer SpecServer SpecFine.

(** ** Lists *)
Lemma fobj_get_set l i o j : fobj_get (fobj_set l i o) j = if i =? j then Some o else fobj_get l j.
Proof.
  induction l as [|[k x] t IH]; cbn; [reflexivity|].
  destruct (Z.eqb_spec k i); cbn; [subst; destruct (i =? j); reflexivity|].
  destruct (Z.eqb_spec k j); [subst; destruct (Z.eqb_spec i j); [congruence|reflexivity]|exact IH].
Qed.
Lemma set_fobj_get s i o j : fobj_get (fi_objs (set_fobj s i o)) j = if i =? j then Some o else fobj_get (fi_objs s) j.
Proof. apply fobj_get_set. Qed.
Lemma mem_in l x : mem l x = true <-> In x l.
Proof.
  unfold mem. rewrite existsb_exists. split; [intros (y & I & E); apply Z.eqb_eq in E; subst; exact I|intro I; exists x; split; [exact I|apply Z.eqb_refl]].
Qed.

(** ** Properties of all prefixes *)
Definition always (P : list fevent -> fevent -> Prop) (evs : list fevent) : Prop := forall a ev b, evs = a ++ ev :: b -> P a ev.
Lemma always_nil P : always P []. Proof. intros [|? ?] ? ? E; discriminate. Qed.
Lemma always_snoc (P : list fevent -> fevent -> Prop) evs x : always P evs -> P evs x -> always P (evs ++ [x]).
Proof.
  intros A Q a ev b E. destruct (@exists_last _ (ev :: b) ltac:(discriminate)) as (b' & y & Eb). rewrite Eb, app_assoc in E.
  apply app_inj_tail in E as [E1 E2]. subst y. destruct b' as [|z b'].
  - cbn in Eb. injection Eb as -> ->. rewrite app_nil_r in E1. subst. exact Q.
  - cbn in Eb. injection Eb as -> ->. apply (A a z b'). exact E1.
Qed.
Lemma always_cons (P : list fevent -> fevent -> Prop) evs x l : always P evs -> P evs x -> (always P (evs ++ [x]) -> always P ((evs ++ [x]) ++ l)) -> always P (evs ++ x :: l).
Proof. intros A Q K. specialize (K (always_snoc _ _ _ A Q)). rewrite <- app_assoc in K. exact K. Qed.
Lemma always_impl (P Q : list fevent -> fevent -> Prop) evs : (forall a ev, P a ev -> Q a ev) -> always P evs -> always Q evs.
Proof. intros H A a ev b E. apply H, (A a ev b E). Qed.
Lemma always_in P evs ev : always P evs -> In ev evs -> exists a b, evs = a ++ ev :: b /\ P a ev.
Proof. intros A I. apply in_split in I as (a & b & E). exists a, b. split; [exact E|exact (A a ev b E)]. Qed.

(** ** Steps that do something *)
Inductive does (s : fine) : list fevent -> fine -> Prop :=
| D_connect id : fobj_get (fi_objs s) id = None ->
    does s [XConnect id] (set_freg (set_fobj s id (Fobj sinit (GClock ThenAddCb) false false false CNot)) (id :: fi_reg s))
| D_clock id o k now t : fobj_get (fi_objs s) id = Some o -> fo_pc o = GClock k -> tstep (fi_tc s) (TStart id id now) = Ok t ->
    does s [XClock id now] (set_tc (set_fobj s id (at_pc o (GDel k))) t)
| D_del id o k t : fobj_get (fi_objs s) id = Some o -> fo_pc o = GDel k -> tstep (fi_tc s) (TDel id) = Ok t ->
    does s [XDel id] (set_tc (set_fobj s id (at_pc o (GIns k))) t)
| D_ins id o k t : fobj_get (fi_objs s) id = Some o -> fo_pc o = GIns k -> tstep (fi_tc s) (TIns id) = Ok t ->
    does s [XIns id] (set_tc (set_fobj s id (at_pc o (go_on k))) t)
| D_addcb id o : fobj_get (fi_objs s) id = Some o -> fo_pc o = GAddCb ->
    does s [XAddCb id (negb (fo_closed o))] (set_fobj s id (Fobj (fo_cfg o) GRecv (fo_closed o) (fo_full o) (negb (fo_closed o)) (fo_close o)))
| D_recv id o m p : fobj_get (fi_objs s) id = Some o -> fo_pc o = GRecv -> received m -> on_message (fi_auto s) m = Ok p ->
    does s [XRecv id m] (set_fobj s id (at_pc o p))
| D_stored id o m ok : fobj_get (fi_objs s) id = Some o -> fo_pc o = GStore m ->
    does s [XStored id ok] (set_fobj s id (at_pc o (if ok then GReply (reply_entity m result_success) (Some m) else GReply (reply_entity m result_fail) None)))
| D_merged id o m c : fobj_get (fi_objs s) id = Some o -> fo_pc o = GMerge m ->
    does s [XMerged id c] (set_fobj s id (at_pc o (match c with Some d => GIcc (whole_message m d) | None => GRecv end)))
| D_fail id o : fobj_get (fi_objs s) id = Some o -> fo_pc o = GRecv -> fo_closed o = true ->
    does s [XFail id] (set_fobj s id (at_pc o GEnd))
| D_fail_shut id o : fobj_get (fi_objs s) id = Some o -> fo_pc o = GRecv -> fo_closed o = false ->
    does s [XFail id; XShut id] (set_fobj (set_fobj s id (at_pc o GEnd)) id (fshut (at_pc o GEnd)))
| D_icc id o m c : fobj_get (fi_objs s) id = Some o -> fo_pc o = GIcc m -> sstep (fo_cfg o) (SIcc m) = Ok c ->
    does s [XIcc id m] (set_fobj s id (at_pc (with_cfg o c) (GTake m)))
| D_take id o m c : fobj_get (fi_objs s) id = Some o -> fo_pc o = GTake m -> sstep (fo_cfg o) STake = Ok c ->
    does s [XTake id m (taken (fo_cfg o) m)]
      (set_fobj s id (at_pc (with_cfg o c) (match taken (fo_cfg o) m with Some _ => GBusy (Some m) | None => GLoad m end)))
| D_load id o m h : fobj_get (fi_objs s) id = Some o -> fo_pc o = GLoad m -> h = load_handler (fi_handlers s) (h_id (m_hdr m)) ->
    does s [XLoad id m h] (set_fobj s id (at_pc o (match h with Some n => GClock (ThenRun n m) | None => GRecv end)))
| D_run id o h m : fobj_get (fi_objs s) id = Some o -> fo_pc o = GRun h m -> does s [XHandle id h m] (set_fobj s id (at_pc o (GBusy None)))
| D_return id o p : fobj_get (fi_objs s) id = Some o -> fo_pc o = GBusy p ->
    does s [XReturn id] (set_fobj s id (at_pc o (match p with Some m => GLoad m | None => GRecv end)))
| D_reply id o e p c : fobj_get (fi_objs s) id = Some o -> fo_pc o = GReply e p -> sstep (fo_cfg o) (SStart (fi_toks s) false e) = Ok c ->
    does s [XReply id (fi_toks s) e] (set_fobj (count_tok s) id (at_pc (with_cfg o c) (GSend (fi_toks s) p)))
| D_start id o cb e c : fobj_get (fi_objs s) id = Some o -> sstep (fo_cfg o) (SStart (fi_toks s) cb e) = Ok c ->
    does s [XStart id (fi_toks s) cb e] (set_fobj (count_tok s) id (with_cfg o c))
| D_next id o tok t0 cb e icc sent c : fobj_get (fi_objs s) id = Some o -> find_call (sc_calls (fo_cfg o)) tok = Some (Call t0 cb e icc None sent) ->
    sstep (fo_cfg o) (SNext tok) = Ok c -> does s [XNext id tok (ss_next (sc_sess c))] (set_fobj s id (with_cfg o c))
| D_wire id o tok m ok closes c o1 evs : fobj_get (fi_objs s) id = Some o -> call_message (fo_cfg o) tok = Some m -> link_send o = (ok, closes) ->
    sstep (fo_cfg o) (SWire tok ok) = Ok c -> returned id (with_cfg o c) tok = (o1, evs) ->
    does s (XWire id tok (if ok then Some m else None) :: (if closes then [XShut id] else []) ++ evs)
      (set_casts (set_fobj s id (if closes then fshut o1 else o1)) (map (cast_returned tok ok) (fi_casts s)))
| D_add id o tok t0 cb e icc n c : fobj_get (fi_objs s) id = Some o -> find_call (sc_calls (fo_cfg o)) tok = Some (Call t0 cb e icc (Some n) true) ->
    sstep (fo_cfg o) (SAdd tok) = Ok c -> does s [XAdd id tok] (set_fobj s id (with_cfg o c))
| D_cast e : does s [XCast (fi_toks s) e (fi_reg s)] (set_casts (count_tok s) ((fi_toks s, Cast e (fi_reg s) None 0) :: fi_casts s))
| D_cast_next b id o e ids n c : cast_get (fi_casts s) b = Some (Cast e ids None n) -> In id ids -> fobj_get (fi_objs s) id = Some o ->
    sstep (fo_cfg o) (SStart (fi_toks s) false e) = Ok c ->
    does s [XCastTo b id (fi_toks s) e] (set_casts (set_fobj (count_tok s) id (with_cfg o c)) (cast_set (fi_casts s) b (Cast e (remove Z.eq_dec id ids) (Some (id, fi_toks s)) n)))
| D_cast_end b e n : cast_get (fi_casts s) b = Some (Cast e [] None n) -> does s [XCount b n] (set_casts s (cast_del (fi_casts s) b))
| D_look id : does s [XLook id (mem (fi_reg s) id)] s
| D_shut id o : fobj_get (fi_objs s) id = Some o -> fo_closed o = false -> does s [XShut id] (set_fobj s id (fshut o))
| D_queue id o b : fobj_get (fi_objs s) id = Some o -> does s [] (set_fobj s id (Fobj (fo_cfg o) (fo_pc o) (fo_closed o) b (fo_cb o) (fo_close o)))
| D_tick now t keys : fi_tick s = TKeys [] -> tstep (fi_tc s) (TTick now) = Ok t -> tc_fired t = (now, keys) :: tc_fired (fi_tc s) ->
    does s [XTick now keys] (set_tick (set_tc s t) (TKeys keys))
| D_get id keys : fi_tick s = TKeys (id :: keys) ->
    does s [XGet id (mem (fi_reg s) id)] (set_tick s (if mem (fi_reg s) id then TFound id keys else TKeys keys))
| D_timeout id keys o : fi_tick s = TFound id keys -> fobj_get (fi_objs s) id = Some o -> fo_closed o = true ->
    does s [XTimeout id] (set_tick s (TKeys keys))
| D_timeout_shut id keys o : fi_tick s = TFound id keys -> fobj_get (fi_objs s) id = Some o -> fo_closed o = false ->
    does s [XTimeout id; XShut id] (set_fobj (set_tick s (TKeys keys)) id (fshut o))
| D_gone id o : fobj_get (fi_objs s) id = Some o -> fo_close o = CNot -> fo_closed o = true -> fo_cb o = true ->
    does s [XGone id] (set_freg (set_fobj s id (at_close o CTimer)) (filter (fun i => negb (i =? id)) (fi_reg s)))
| D_remove id o t : fobj_get (fi_objs s) id = Some o -> fo_close o = CTimer -> tstep (fi_tc s) (TRemove id) = Ok t ->
    does s [XRemove id] (set_tc (set_fobj s id (at_close o CHandler)) t)
| D_closed id o : fobj_get (fi_objs s) id = Some o -> fo_close o = CHandler -> does s [XClosed id] (set_fobj s id (at_close o COver))
| D_handler msgid h :
    does s [XHandler msgid h] (Fine (fi_auto s) ((msgid, h) :: fi_handlers s) (fi_tc s) (fi_objs s) (fi_reg s) (fi_tick s) (fi_casts s) (fi_toks s)).

Definition good_op (o : fop) : Prop := match o with FRecv _ m => received m | _ => True end.
Lemma tick_fired c now t : tstep c (TTick now) = Ok t -> exists keys, tc_fired t = (now, keys) :: tc_fired c.
Proof. unfold tstep, bind. destruct (timer_check (tc_timer c) now) as [[t' keys]| |]; intro H; try discriminate H. injection H as <-. exists keys. reflexivity. Qed.

(** Every step does one of these or nothing. *)
Ltac idle H := injection H as <- <-; left; split; reflexivity.
Ltac get_obj H :=
  match type of H with context [fobj_get (fi_objs ?s) ?i] => destruct (fobj_get (fi_objs s) i) as [o|] eqn:Go; [|idle H] end.
Ltac step_in H := unfold bind in H; match type of H with context [match ?x with Ok _ => _ | Err _ => _ | Panic => _ end] => destruct x eqn:St; try discriminate end.
Lemma fstep_does s op s' e : good_op op -> fstep s op = Ok (s', e) -> (s' = s /\ e = []) \/ does s e s'.
Proof.
  intros G H. destruct op; cbn -[sstep tstep] in H.
  - destruct (fobj_get (fi_objs s) id) as [o|] eqn:Go; [idle H|]. injection H as <- <-. right. constructor. exact Go.
  - get_obj H. destruct (fo_pc o) eqn:P; try (idle H). step_in H. injection H as <- <-. right. econstructor; eassumption.
  - get_obj H. destruct (fo_pc o) eqn:P; try (idle H). step_in H. injection H as <- <-. right. econstructor; eassumption.
  - get_obj H. destruct (fo_pc o) eqn:P; try (idle H). step_in H. injection H as <- <-. right. econstructor; eassumption.
  - get_obj H. destruct (fo_pc o) eqn:P; try (idle H). injection H as <- <-. right. econstructor; eassumption.
  - get_obj H. destruct (fo_pc o) eqn:P; try (idle H). step_in H. injection H as <- <-. right. econstructor; eassumption.
  - get_obj H. destruct (fo_pc o) eqn:P; try (idle H). injection H as <- <-. right. econstructor; eassumption.
  - get_obj H. destruct (fo_pc o) eqn:P; try (idle H). injection H as <- <-. right. econstructor; eassumption.
  - get_obj H. destruct (fo_pc o) eqn:P; try (idle H). unfold fclose in H. cbn [fo_closed at_pc] in H. destruct (fo_closed o) eqn:C; injection H as <- <-; right.
    + eapply D_fail; eassumption.
    + eapply D_fail_shut; eassumption.
  - get_obj H. destruct (fo_pc o) eqn:P; try (idle H). step_in H. injection H as <- <-. right. econstructor; eassumption.
  - get_obj H. destruct (fo_pc o) eqn:P; try (idle H). step_in H. injection H as <- <-. right. econstructor; eassumption.
  - get_obj H. destruct (fo_pc o) eqn:P; try (idle H). injection H as <- <-. right. econstructor; first [eassumption|reflexivity].
  - get_obj H. destruct (fo_pc o) eqn:P; try (idle H). injection H as <- <-. right. econstructor; eassumption.
  - get_obj H. destruct (fo_pc o) eqn:P; try (idle H). injection H as <- <-. right. econstructor; eassumption.
  - get_obj H. destruct (fo_pc o) eqn:P; try (idle H). unfold enter in H. destruct (sstep (fo_cfg o) (SStart (fi_toks s) false e0)) eqn:St; cbn in H; try discriminate.
    injection H as <- <-. right. econstructor; eassumption.
  - get_obj H. unfold enter in H. destruct (sstep (fo_cfg o) (SStart (fi_toks s) cb e0)) eqn:St; cbn in H; try discriminate.
    injection H as <- <-. right. econstructor; eassumption.
  - get_obj H. destruct (find_call (sc_calls (fo_cfg o)) tok) as [[t0 cb e0 icc [n|] sent]|] eqn:F; try (idle H). step_in H. injection H as <- <-. right. eapply D_next; eassumption.
  - get_obj H. destruct (call_message (fo_cfg o) tok) eqn:F; try (idle H). destruct (link_send o) as [ok closes] eqn:L. step_in H.
    destruct (returned id (with_cfg o a) tok) as [o1 evs] eqn:R. injection H as <- <-. right. econstructor; eassumption.
  - get_obj H. destruct (find_call (sc_calls (fo_cfg o)) tok) as [[t0 cb e0 icc [n|] [|]]|] eqn:F; try (idle H). step_in H. injection H as <- <-. right. eapply D_add; eassumption.
  - injection H as <- <-. right. constructor.
  - destruct (cast_get (fi_casts s) b) as [[e0 ids [cur|] n]|] eqn:C; try (idle H). destruct (mem ids id) eqn:M; [|idle H]. apply mem_in in M.
    get_obj H. unfold enter in H. destruct (sstep (fo_cfg o) (SStart (fi_toks s) false e0)) eqn:St; cbn in H; try discriminate.
    injection H as <- <-. right. econstructor; eassumption.
  - destruct (cast_get (fi_casts s) b) as [[e0 [|i ids] [cur|] n]|] eqn:C; try (idle H). injection H as <- <-. right. econstructor; eassumption.
  - injection H as <- <-. right. constructor.
  - get_obj H. unfold fclose in H. destruct (fo_closed o) eqn:C; [idle H|]. injection H as <- <-. right. econstructor; eassumption.
  - get_obj H. injection H as <- <-. right. econstructor; eassumption.
  - destruct (fi_tick s) as [[|k ks]|] eqn:T; try (idle H). unfold bind in H. destruct (tstep (fi_tc s) (TTick now)) as [t| |] eqn:St; try discriminate.
    destruct (tick_fired _ _ _ St) as (keys & Ef). rewrite Ef in H. injection H as <- <-. right. econstructor; eassumption.
  - destruct (fi_tick s) as [[|k ks]|] eqn:T; try (idle H). injection H as <- <-. right. econstructor; eassumption.
  - destruct (fi_tick s) as [ks|i ks] eqn:T; try (idle H). get_obj H. unfold fclose in H. destruct (fo_closed o) eqn:C; injection H as <- <-; right.
    + eapply D_timeout; eassumption.
    + eapply D_timeout_shut; eassumption.
  - get_obj H. destruct (fo_close o) eqn:P; try (idle H). destruct (fo_closed o) eqn:C; [|idle H]. destruct (fo_cb o) eqn:B; [|idle H]. injection H as <- <-. right. econstructor; eassumption.
  - get_obj H. destruct (fo_close o) eqn:P; try (idle H). step_in H. injection H as <- <-. right. econstructor; eassumption.
  - get_obj H. destruct (fo_close o) eqn:P; try (idle H). injection H as <- <-. right. econstructor; eassumption.
  - injection H as <- <-. right. constructor.
Qed.

(** ** Induction over histories *)
Lemma frun_keeps (P : list fevent -> fine -> Prop) :
  (forall evs s e s', P evs s -> does s e s' -> P (evs ++ e) s') ->
  forall ops evs s s' e, P evs s -> Forall good_op ops -> frun s ops = Ok (s', e) -> P (evs ++ e) s'.
Proof.
  intros K ops. induction ops as [|op ops IH]; intros evs s s' e H G R.
  - injection R as <- <-. rewrite app_nil_r. exact H.
  - inversion G as [|? ? G1 G2]; subst. cbn in R. unfold bind in R. destruct (fstep s op) as [[s1 e1]| |] eqn:E1; try discriminate.
    destruct (frun s1 ops) as [[s2 e2]| |] eqn:E2; try discriminate. injection R as <- <-. rewrite app_assoc.
    apply (IH (evs ++ e1) s1 s2 e2); [|exact G2|exact E2]. destruct (fstep_does _ _ _ _ G1 E1) as [[-> ->]|D]; [rewrite app_nil_r; exact H|exact (K _ _ _ _ H D)].
Qed.
Lemma happens_keeps (P : list fevent -> fine -> Prop) auto ka evs : P [] (fine_init auto ka) ->
  (forall evs s e s', P evs s -> does s e s' -> P (evs ++ e) s') -> happens auto ka evs -> exists s, P evs s.
Proof. intros I K (ops & st & G & R). exists st. exact (frun_keeps P K ops [] _ _ _ I G R). Qed.
