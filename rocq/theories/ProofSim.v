(** Every history of Server.v is one of Fine.v. *)
From Verif Require Import Base LibBase Env EntTerm EntPlat Registry Message Timer Session Multipart Server Fine.
From Verif Require Import SpecSession SpecTimer SpecServer SpecFine SpecSim ProofServer ProofFine ProofWorld2.

Lemma frun_one s op s1 e : fstep s op = Ok (s1, e) -> frun s [op] = Ok (s1, e).
Proof. intros E. cbn [frun]. rewrite E. cbn [bind]. rewrite app_nil_r. reflexivity. Qed.
Lemma frun_cons s op s1 e l s2 e2 : fstep s op = Ok (s1, e) -> frun s1 l = Ok (s2, e2) -> frun s (op :: l) = Ok (s2, e ++ e2).
Proof. intros E F. cbn [frun]. rewrite E. cbn [bind]. rewrite F. reflexivity. Qed.

(** ** Names of callbacks *)
Definition named (name : Z -> Z) (r : request) : request := Request (rq_msgid r) (rq_serial r) (name (rq_tok r)).
Definition renamed (name : Z -> Z) (s : session) : session := Session (ss_next s) (ss_icc s) (map (named name) (ss_reqs s)).
Definition agree (n : Z) (f g : Z -> Z) : Prop := forall t, t < n -> g t = f t.
Lemma find_serial_map name l n : find_serial (map (named name) l) n = find_serial l n.
Proof. induction l as [|x l IH]; [reflexivity|]. cbn. rewrite IH. reflexivity. Qed.
Lemma replace_map name l : forall i r, replace_at (map (named name) l) i (named name r) = map (named name) (replace_at l i r).
Proof. induction l as [|x l IH]; intros [|i] r; cbn; auto. rewrite IH. reflexivity. Qed.
Lemma nth_named name l i : (i < length l)%nat -> nth i (map (named name) l) (Request 0 0 0) = named name (nth i l (Request 0 0 0)).
Proof. intros L. rewrite (nth_indep _ _ (named name (Request 0 0 0))) by (rewrite map_length; exact L). apply map_nth. Qed.
Lemma find_serial_lt l n : forall i, find_serial l n = Some i -> (i < length l)%nat.
Proof. induction l as [|x l IH]; intros i E; cbn in E; [discriminate|]. destruct (_ =? _); [injection E as <-; cbn; lia|]. destruct (find_serial l n) as [j|]; [|discriminate]. injection E as <-. specialize (IH j eq_refl). cbn. lia. Qed.
Lemma take_map name l n : take_request (map (named name) l) n = (match fst (take_request l n) with Some r => Some (named name r) | None => None end, map (named name) (snd (take_request l n))).
Proof.
  unfold take_request. rewrite find_serial_map. destruct (find_serial l n) as [i|] eqn:F; [|reflexivity]. apply find_serial_lt in F. cbn [fst snd].
  rewrite map_length, !nth_named by lia. rewrite replace_map, firstn_map. reflexivity.
Qed.
Lemma add_map name l r : add_request (map (named name) l) (named name r) = map (named name) (add_request l r).
Proof. induction l as [|x l IH]; [reflexivity|]. cbn. destruct (_ =? _); [reflexivity|]. rewrite IH. reflexivity. Qed.
Lemma agree_map n f g l : agree n f g -> Forall (fun r => rq_tok r < n) l -> map (named g) l = map (named f) l.
Proof. intros A F. induction F as [|x l L F IH]; [reflexivity|]. cbn. rewrite IH. unfold named at 1 3. rewrite (A _ L). reflexivity. Qed.
Lemma take_in l n r : fst (take_request l n) = Some r -> In r l.
Proof. unfold take_request. destruct (find_serial l n) as [i|] eqn:F; [|discriminate]. cbn. intros E. injection E as <-. apply nth_In. eapply find_serial_lt; eauto. Qed.
Lemma replace_in l x : forall i r, In x (replace_at l i r) -> x = r \/ In x l.
Proof. induction l as [|y l IH]; intros [|i] r I; cbn in *; auto; destruct I as [<-|I]; auto. destruct (IH _ _ I); auto. Qed.
Lemma firstn_in {A} (l : list A) x : forall n, In x (firstn n l) -> In x l.
Proof. induction l as [|y l IH]; intros [|n] I; cbn in *; auto; [contradiction|]. destruct I; eauto. Qed.
Lemma take_rest l n x : In x (snd (take_request l n)) -> In x l.
Proof.
  unfold take_request. destruct (find_serial l n) as [i|] eqn:F; [|auto]. cbn. intros I. apply firstn_in, replace_in in I. destruct I as [->|]; auto.
  apply nth_In. apply find_serial_lt in F. lia.
Qed.
Lemma add_in l r x : In x (add_request l r) -> x = r \/ In x l.
Proof. induction l as [|y l IH]; cbn; [intuition|]. destruct (_ =? _); cbn; intros [<-|I]; auto. apply IH in I. tauto. Qed.

(** ** States that differ in one session *)
Definition moved (s s' : fine) (id : Z) (fo : fobj) (tc : tcfg) (casts : list (Z * cast)) (toks : Z) : Prop :=
  fi_auto s' = fi_auto s /\ fi_handlers s' = fi_handlers s /\ fi_tc s' = tc /\ fi_reg s' = fi_reg s /\ fi_tick s' = fi_tick s /\ fi_casts s' = casts /\ fi_toks s' = toks /\
  forall j, fobj_get (fi_objs s') j = if id =? j then Some fo else fobj_get (fi_objs s) j.
Lemma moved_set s id fo : moved s (set_fobj s id fo) id fo (fi_tc s) (fi_casts s) (fi_toks s).
Proof. repeat (split; [reflexivity|]). intros j. apply set_fobj_get. Qed.
Lemma moved_trans s s1 s2 id fo1 fo2 tc1 tc2 c1 c2 t1 t2 : moved s s1 id fo1 tc1 c1 t1 -> moved s1 s2 id fo2 tc2 c2 t2 -> moved s s2 id fo2 tc2 c2 t2.
Proof.
  intros (A1 & A2 & A3 & A4 & A5 & A6 & A7 & A8) (B1 & B2 & B3 & B4 & B5 & B6 & B7 & B8). repeat (split; [congruence|]).
  intros j. rewrite B8, A8. destruct (id =? j); reflexivity.
Qed.
Lemma moved_get s s' id fo tc c t : moved s s' id fo tc c t -> fobj_get (fi_objs s') id = Some fo.
Proof. intros (_ & _ & _ & _ & _ & _ & _ & H). rewrite H, Z.eqb_refl. reflexivity. Qed.

(** ** Send *)
Definition goes (fo : fobj) : bool := negb (fo_closed fo) && negb (fo_full fo).
Definition bursts (fo : fobj) : bool := negb (fo_closed fo) && fo_full fo.
Definition pc_after (p : gpc) (tok : Z) : gpc := match p with GSend t k => if t =? tok then after_reply k else p | _ => p end.
Definition sent_obj (fo : fobj) (fs : session) (cb : bool) (tok : Z) (e : entity) (log : list sevent) : fobj :=
  Fobj (SCfg (Session (next_serial (ss_next fs)) (ss_icc fs) (ss_reqs fs))
         (if goes fo && cb then [Call tok cb e (ss_icc fs) (Some (next_serial (ss_next fs))) true] else []) None log)
       (pc_after (fo_pc fo) tok) (fo_closed fo || fo_full fo) (fo_full fo) (fo_cb fo) (fo_close fo).
Definition send_sights (fo : fobj) (fs : session) (id : Z) (e : entity) : list sight :=
  (if goes fo then [LEffect (SvSend id (fst (session_send fs e)))] else []) ++ (if bursts fo then [LEffect (SvShut id)] else []).
Lemma next_wire s id fo fs cb tok e log : fobj_get (fi_objs s) id = Some fo -> fo_cfg fo = SCfg fs [Call tok cb e (ss_icc fs) None false] None log ->
  exists s' evs log', frun s [FNext id tok; FWire id tok] = Ok (s', evs) /\ moved s s' id (sent_obj fo fs cb tok e log') (fi_tc s) (map (cast_returned tok (goes fo)) (fi_casts s)) (fi_toks s) /\
    forall nm, flat_map (sight_of nm) evs = send_sights fo fs id e.
Proof.
  intros G C. destruct fo as [cfg pc closed full cbk cl]. cbn [fo_cfg] in C. subst cfg.
  assert (N1 : find_call [Call tok cb e (ss_icc fs) None false] tok = Some (Call tok cb e (ss_icc fs) None false)) by (cbn; rewrite Z.eqb_refl; reflexivity).
  set (n := next_serial (ss_next fs)).
  set (c1 := SCfg (Session n (ss_icc fs) (ss_reqs fs)) [Call tok cb e (ss_icc fs) (Some n) false] None (EvNext tok n :: log)).
  assert (S1 : sstep (SCfg fs [Call tok cb e (ss_icc fs) None false] None log) (SNext tok) = Ok c1).
  { cbn [sstep sc_calls sc_sess sc_busy sc_log]. rewrite N1. cbn [del_call cl_tok]. rewrite Z.eqb_refl. reflexivity. }
  assert (N2 : find_call (sc_calls c1) tok = Some (Call tok cb e (ss_icc fs) (Some n) false)) by (cbn; rewrite Z.eqb_refl; reflexivity).
  assert (S2 : forall ok, sstep c1 (SWire tok ok) = Ok (SCfg (Session n (ss_icc fs) (ss_reqs fs)) (if ok && cb then [Call tok cb e (ss_icc fs) (Some n) true] else []) None
     (if ok then EvSent tok (Message (Header (entity_id e) 0 (ss_icc fs) n None) (BEnt e)) :: EvNext tok n :: log else EvNext tok n :: log))).
  { intros ok. cbn [sstep]. rewrite N2. cbn [del_call cl_tok c1 sc_calls]. rewrite Z.eqb_refl. destruct ok, cb; reflexivity. }
  set (s1 := set_fobj s id (Fobj c1 pc closed full cbk cl)).
  assert (T1 : fstep s (FNext id tok) = Ok (s1, [XNext id tok n])).
  { cbn [fstep]. rewrite G. cbn [fo_cfg sc_calls]. rewrite N1, S1. reflexivity. }
  assert (G1 : fobj_get (fi_objs s1) id = Some (Fobj c1 pc closed full cbk cl)) by (unfold s1; rewrite set_fobj_get, Z.eqb_refl; reflexivity).
  pose (m := Message (Header (entity_id e) 0 (ss_icc fs) n None) (BEnt e)).
  assert (C1 : call_message c1 tok = Some m) by (unfold call_message; rewrite N2; reflexivity).
  set (fo := Fobj (SCfg fs [Call tok cb e (ss_icc fs) None false] None log) pc closed full cbk cl).
  set (log' := if goes fo then EvSent tok m :: EvNext tok n :: log else EvNext tok n :: log).
  set (o2 := sent_obj fo fs cb tok e log').
  pose (rep := match pc with GSend t _ => if t =? tok then [XReplied id tok] else [] | _ => [] end).
  assert (T2 : fstep s1 (FWire id tok) = Ok (set_casts (set_fobj s1 id o2) (map (cast_returned tok (goes fo)) (fi_casts s)),
     XWire id tok (if goes fo then Some m else None) :: (if bursts fo then [XShut id] else []) ++ rep)).
  { cbn [fstep]. rewrite G1. cbn [fo_cfg]. rewrite C1. unfold link_send. cbn [fo_closed fo_full].
    unfold o2, sent_obj, goes, bursts, log', rep, pc_after, goes, fo, returned, with_cfg, at_pc, fshut.
    cbn [fo_closed fo_full fo_pc fo_cb fo_close fo_cfg].
    destruct closed, full; rewrite S2; cbn [bind negb andb orb fo_pc]; destruct pc; try reflexivity; destruct (_ =? _); reflexivity. }
  exists (set_casts (set_fobj s1 id o2) (map (cast_returned tok (goes fo)) (fi_casts s))). eexists. exists log'. split; [|split].
  - eapply frun_cons; [exact T1|]. apply frun_one. exact T2.
  - eapply moved_trans; [apply moved_set|]. repeat (split; [reflexivity|]). intros j. exact (set_fobj_get s1 id o2 j).
  - intros nm. cbn [flat_map sight_of app]. unfold send_sights, session_send. cbn [fst]. fold n m. rewrite flat_map_app.
    replace (flat_map (sight_of nm) rep) with (@nil sight) by (unfold rep; destruct pc; try reflexivity; destruct (_ =? _); reflexivity).
    rewrite app_nil_r. destruct (goes fo), (bursts fo); reflexivity.
Qed.
