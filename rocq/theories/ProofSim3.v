(** Every history of Server.v is one of Fine.v: replies and messages. *)
From Verif Require Import Base LibBase Bits Env EntTerm EntPlat Registry Message Timer Session Multipart Server Fine.
From Verif Require Import SpecSession SpecTimer SpecServer SpecFine SpecSim ProofServer ProofFine ProofWorld2 ProofSim ProofSim2.

(** The object after Send, and the effects *)
Definition send_effects (o : sobj) (id : Z) (e : entity) : list sv_event :=
  (if negb (so_closed o) && negb (so_full o) then [SvSend id (fst (session_send (so_sess o) e))] else []) ++ (if negb (so_closed o) && so_full o then [SvShut id] else []).
Definition bumped (fs : session) : session := Session (next_serial (ss_next fs)) (ss_icc fs) (ss_reqs fs).
Lemma rest_of_send name s s1 id cfg pc o cp fs cb e log tok casts toks : fobj_get (fi_objs s1) id = Some (Fobj cfg pc (so_closed o) (so_full o) (so_cb o) cp) ->
  cfg = SCfg fs [Call tok cb e (ss_icc fs) None false] None log -> so_sess o = renamed name fs -> moved s s1 id (Fobj cfg pc (so_closed o) (so_full o) (so_cb o) cp) (fi_tc s) casts toks ->
  exists s' log', does name s1 [FNext id tok; FWire id tok] s' (map LEffect (send_effects o id e)) /\
    moved s s' id (Fobj (SCfg (bumped fs) (if (negb (so_closed o) && negb (so_full o)) && cb then [Call tok cb e (ss_icc fs) (Some (next_serial (ss_next fs))) true] else []) None log')
      (pc_after pc tok) (so_closed o || so_full o) (so_full o) (so_cb o) cp) (fi_tc s) (map (cast_returned tok (negb (so_closed o) && negb (so_full o))) casts) toks.
Proof.
  intros G C R M. destruct (next_wire s1 id _ fs cb tok e log G C) as (s' & evs & log' & RUN & M2 & L). exists s', log'. split.
  - exists evs. split; [exact RUN|]. split; [repeat constructor|]. intros nm _. rewrite L. apply (send_sights_eq name); auto.
  - destruct M as (X1 & X2 & X3 & X4 & X5 & X6 & X7 & X8). rewrite X3, X6, X7 in M2. eapply moved_trans; [|exact M2]. repeat (split; [eassumption|]). eassumption.
Qed.
(** The goroutine of a session replies *)
Lemma reply_steps name s id o cp fs log e p : fobj_get (fi_objs s) id = Some (Fobj (SCfg fs [] None log) (GReply e p) (so_closed o) (so_full o) (so_cb o) cp) ->
  so_sess o = renamed name fs -> fi_casts s = [] ->
  exists s' log', does name s [FReply id; FNext id (fi_toks s); FWire id (fi_toks s)] s' (map LEffect (send_effects o id e)) /\
    moved s s' id (Fobj (SCfg (bumped fs) [] None log') (after_reply p) (so_closed o || so_full o) (so_full o) (so_cb o) cp) (fi_tc s) [] (fi_toks s + 1).
Proof.
  intros G R C. set (tok := fi_toks s). set (cfg := SCfg fs [Call tok false e (ss_icc fs) None false] None log).
  set (fo := Fobj cfg (GSend tok p) (so_closed o) (so_full o) (so_cb o) cp). set (s1 := set_fobj (count_tok s) id fo).
  assert (E1 : fstep s (FReply id) = Ok (s1, [XReply id tok e])) by (cbn [fstep]; rewrite G; reflexivity).
  assert (M1 : moved s s1 id fo (fi_tc s) [] (fi_toks s + 1)) by (rewrite <- C; repeat (split; [reflexivity|]); intros j; exact (set_fobj_get (count_tok s) id fo j)).
  destruct (rest_of_send name s s1 id cfg _ o cp fs false e log tok [] _ (moved_get _ _ _ _ _ _ _ M1) eq_refl R M1) as (s' & log' & D & M2).
  cbn [pc_after] in M2. rewrite Z.eqb_refl, andb_false_r in M2. exists s', log'. split; [|exact M2].
  refine (does_step _ _ _ _ _ [] _ _ _ E1 Logic.I _ D _); [reflexivity|]. destruct M2 as (_ & _ & _ & _ & _ & _ & K & _). rewrite K. cbn. lia.
Qed.
(** A user calls Send or Request *)
Lemma start_steps name s id o cp fs log cb e pc : fobj_get (fi_objs s) id = Some (Fobj (SCfg fs [] None log) pc (so_closed o) (so_full o) (so_cb o) cp) ->
  so_sess o = renamed name fs -> fi_casts s = [] -> pc = GRecv \/ pc = GAddCb ->
  exists s' log', does name s [FStart id cb e; FNext id (fi_toks s); FWire id (fi_toks s)] s' ((if cb then LRequest id (name (fi_toks s)) e else LSend id e) :: map LEffect (send_effects o id e)) /\
    moved s s' id (Fobj (SCfg (bumped fs) (if (negb (so_closed o) && negb (so_full o)) && cb then [Call (fi_toks s) cb e (ss_icc fs) (Some (next_serial (ss_next fs))) true] else []) None log')
      pc (so_closed o || so_full o) (so_full o) (so_cb o) cp) (fi_tc s) [] (fi_toks s + 1).
Proof.
  intros G R C PC. set (tok := fi_toks s). set (cfg := SCfg fs [Call tok cb e (ss_icc fs) None false] None log).
  set (fo := Fobj cfg pc (so_closed o) (so_full o) (so_cb o) cp). set (s1 := set_fobj (count_tok s) id fo).
  assert (E1 : fstep s (FStart id cb e) = Ok (s1, [XStart id tok cb e])) by (cbn [fstep]; rewrite G; reflexivity).
  assert (M1 : moved s s1 id fo (fi_tc s) [] (fi_toks s + 1)) by (rewrite <- C; repeat (split; [reflexivity|]); intros j; exact (set_fobj_get (count_tok s) id fo j)).
  destruct (rest_of_send name s s1 id cfg _ o cp fs cb e log tok [] _ (moved_get _ _ _ _ _ _ _ M1) eq_refl R M1) as (s' & log' & D & M2).
  replace (pc_after pc tok) with pc in M2 by (destruct PC as [-> | ->]; reflexivity). exists s', log'. split; [|exact M2].
  assert (K : fi_toks s' = fi_toks s + 1) by (destruct M2 as (_ & _ & _ & _ & _ & _ & K & _); exact K).
  refine (does_step _ _ _ _ _ [if cb then LRequest id (name tok) e else LSend id e] _ _ _ E1 Logic.I _ D _); [|rewrite K; cbn; lia].
  intros nm A. cbn. rewrite (A tok) by (cbn; unfold tok; lia). reflexivity.
Qed.

(** One message *)
Definition quiet (s : fine) : Prop := fi_tick s = TKeys [] /\ fi_casts s = [].
Lemma moved_quiet s s' id fo tc toks : quiet s -> moved s s' id fo tc [] toks -> quiet s'.
Proof. intros [A B] (_ & _ & _ & _ & X5 & X6 & _). split; congruence. Qed.
Lemma does_fine_toks name s s' id fo tc c toks fops l n : does name s fops s' l -> moved s s' id fo tc c toks -> fi_toks s' = n -> n = toks.
Proof. intros _ (_ & _ & _ & _ & _ & _ & K & _). congruence. Qed.
Lemma as_session fs log pc (o : sobj) cp : Fobj (SCfg fs [] None log) pc (so_closed o || so_full o) (so_full o) (so_cb o) cp =
  Fobj (SCfg fs [] None log) pc (so_closed (sent_sobj o)) (so_full (sent_sobj o)) (so_cb (sent_sobj o)) cp.
Proof. reflexivity. Qed.

Section DELIVER.
Variables (name : Z -> Z) (added : Z -> bool) (sv : server) (s : fine) (id now : Z) (o : sobj) (m : message).
Hypothesis SM : sim name added sv s.
Hypothesis Q : quiet s.
Hypothesis G : obj_get (sv_objs sv) id = Some o.
Hypothesis AD : added id = true.
Hypothesis RC : received m.
Let good (sv' : server) (evs : list sv_event) : Prop :=
  exists fops s', does name s fops s' (LMessage id m :: map LEffect evs) /\ sim name added sv' s' /\ quiet s' /\ fi_toks s <= fi_toks s'.
(** The object of the session while its goroutine works on the message *)
Let at_ (fs : session) (log : list sevent) (p : gpc) : fobj := Fobj (SCfg fs [] None log) p (so_closed o) (so_full o) (so_cb o) (if so_ran o then COver else CNot).
Lemma recv_step p : on_message (sv_auto sv) m = Ok p ->
  exists s1 fs log fired, does name s [FRecv id m] s1 [LMessage id m] /\ moved s s1 id (at_ fs log p) (Tcfg (sv_timer sv) [] fired) [] (fi_toks s) /\
    so_sess o = renamed name fs /\ Forall (fun r => rq_tok r < fi_toks s) (ss_reqs fs).
Proof.
  intros P. destruct (sim_get _ _ _ _ _ _ SM G) as (fo & GF & (fs & log & E & R & F & _)). rewrite AD in E. destruct (sm_tc _ _ _ _ SM) as (fired & TC).
  exists (set_fobj s id (at_ fs log p)), fs, log, fired. split; [|split; [|split; [exact R|exact F]]].
  - eapply (does_one _ _ _ _ [XRecv id m]); [|exact RC|reflexivity]. cbn [fstep]. rewrite GF, E. cbn [fo_pc]. rewrite (sm_auto _ _ _ _ SM), P. cbn [bind]. reflexivity.
  - destruct Q as [_ QC]. rewrite <- QC, <- TC. apply moved_set.
Qed.
(** A step of the goroutine that only moves on *)
Lemma move_step s1 op fs log fired p q ev toks : fobj_get (fi_objs s1) id = Some (at_ fs log p) -> moved s s1 id (at_ fs log p) (Tcfg (sv_timer sv) [] fired) [] toks ->
  fstep s1 op = Ok (set_fobj s1 id (at_ fs log q), [ev]) -> match op with FRecv _ _ => False | _ => True end -> (forall nm, sight_of nm ev = []) ->
  does name s1 [op] (set_fobj s1 id (at_ fs log q)) [] /\ moved s (set_fobj s1 id (at_ fs log q)) id (at_ fs log q) (Tcfg (sv_timer sv) [] fired) [] toks.
Proof.
  intros G1 M1 E NR SI. split; [eapply does_one; [exact E|destruct op; auto; contradiction|]; intros nm _; cbn; rewrite SI; reflexivity|].
  destruct M1 as (X1 & X2 & X3 & X4 & X5 & X6 & X7 & X8).
  eapply moved_trans; [repeat (split; [eassumption|]); eassumption|]. rewrite <- X3, <- X6, <- X7. apply moved_set.
Qed.
(** The message is answered and that is all. *)
Lemma only_reply s1 fops fs log fired e sv0 f : does name s fops s1 [LMessage id m] -> moved s s1 id (at_ fs log (GReply e None)) (Tcfg (sv_timer sv) [] fired) [] (fi_toks s) ->
  so_sess o = renamed name fs -> Forall (fun r => rq_tok r < fi_toks s) (ss_reqs fs) -> sv0 = set_fs sv f -> good (set_obj sv0 id (sent_sobj o)) (send_effects o id e).
Proof.
  intros D M1 R F ->. assert (K1 : fi_toks s1 = fi_toks s) by apply M1. assert (T1 : fi_tc s1 = Tcfg (sv_timer sv) [] fired) by apply M1.
  destruct (reply_steps name s1 id o _ fs log e None (moved_get _ _ _ _ _ _ _ M1) R) as (s2 & log2 & D2 & M2); [apply M1|].
  rewrite T1, K1 in M2. pose proof (moved_trans _ _ _ _ _ _ _ _ _ _ _ _ M1 M2) as M3. assert (K2 : fi_toks s2 = fi_toks s + 1) by apply M3.
  exists (fops ++ [FReply id; FNext id (fi_toks s1); FWire id (fi_toks s1)]), s2. split; [|split; [|split]].
  - refine (does_app _ _ _ _ [LMessage id m] _ _ _ D D2 _). lia.
  - eapply (sim_moved name name added added sv); [exact SM|exact G| |exact M3| |intros t _; reflexivity|lia|reflexivity].
    + apply (smoved_from_fs _ _ _ _ f), smoved_set.
    + exists (bumped fs), log2. rewrite AD. split; [reflexivity|]. split; [apply renamed_sent, R|]. split; [eapply forall_le; [exact F|lia]|discriminate].
  - eapply moved_quiet; eauto.
  - lia.
Qed.
(** The message is passed on and that is all. *)
Lemma only_pass sv' evs : on_message (sv_auto sv) m = Ok (GIcc m) -> message_and_dispatch sv id now o m = Ok (sv', evs) -> good sv' evs.
Proof.
  intros P MD. destruct (recv_step _ P) as (s1 & fs & log & fired & D1 & M1 & R & F). assert (K1 : fi_toks s1 = fi_toks s) by apply M1.
  assert (H1 : fi_handlers s1 = sv_handlers sv) by (destruct M1 as (_ & H1 & _); rewrite H1; apply (sm_handlers _ _ _ _ SM)). assert (T1 : fi_tc s1 = Tcfg (sv_timer sv) [] fired) by apply M1.
  destruct (pass_steps name s1 id now o m fs log _ _ _ _ sv sv' evs fired (moved_get _ _ _ _ _ _ _ M1) T1 H1 R) as (fops & s2 & fs' & log' & D2 & M2 & F2 & S2); [rewrite K1; exact F|exact MD|].
  replace (fi_casts s1) with (@nil (Z * cast)) in M2 by (symmetry; apply M1). rewrite K1 in M2, F2. pose proof (moved_trans _ _ _ _ _ _ _ _ _ _ _ _ M1 M2) as M3.
  assert (K2 : fi_toks s2 = fi_toks s) by apply M3.
  exists ([FRecv id m] ++ fops), s2. split; [|split; [|split]].
  - refine (does_app _ _ _ _ [LMessage id m] _ _ _ D1 D2 _). lia.
  - eapply (sim_moved name name added added sv); [exact SM|exact G|exact S2|exact M3| |intros t _; reflexivity|lia|reflexivity].
    exists fs', log'. rewrite AD. split; [reflexivity|]. split; [reflexivity|]. split; [exact F2|discriminate].
  - eapply moved_quiet; eauto.
  - lia.
Qed.
(** A packet is stored and answered; what follows depends on the merge. *)
Lemma stored_steps : on_message (sv_auto sv) m = Ok (GStore m) ->
  exists fops s1 fs log fired, does name s fops s1 (LMessage id m :: map LEffect (send_effects o id (reply_entity m result_success))) /\
    moved s s1 id (Fobj (SCfg fs [] None log) (GMerge m) (so_closed (sent_sobj o)) (so_full (sent_sobj o)) (so_cb (sent_sobj o)) (if so_ran o then COver else CNot)) (Tcfg (sv_timer sv) [] fired) [] (fi_toks s + 1) /\
    so_sess (sent_sobj o) = renamed name fs /\ Forall (fun r => rq_tok r < fi_toks s) (ss_reqs fs).
Proof.
  intros P. destruct (recv_step _ P) as (s1 & fs & log & fired & D1 & M1 & R & F).
  destruct (move_step s1 (FStored id true) fs log fired (GStore m) (GReply (reply_entity m result_success) (Some m)) (XStored id true) _ (moved_get _ _ _ _ _ _ _ M1) M1) as [D2 M2];
    [cbn [fstep]; rewrite (moved_get _ _ _ _ _ _ _ M1); reflexivity|exact Logic.I|reflexivity|].
  set (s2 := set_fobj s1 id _) in D2, M2. clearbody s2. assert (K1 : fi_toks s1 = fi_toks s) by apply M1. assert (K2 : fi_toks s2 = fi_toks s) by apply M2. assert (T2 : fi_tc s2 = Tcfg (sv_timer sv) [] fired) by apply M2.
  destruct (reply_steps name s2 id o _ fs log _ _ (moved_get _ _ _ _ _ _ _ M2) R) as (s3 & log3 & D3 & M3); [apply M2|].
  rewrite T2, K2 in M3. pose proof (moved_trans _ _ _ _ _ _ _ _ _ _ _ _ M2 M3) as M4. assert (K3 : fi_toks s3 = fi_toks s + 1) by apply M4.
  exists ([FRecv id m] ++ [FStored id true] ++ [FReply id; FNext id (fi_toks s2); FWire id (fi_toks s2)]), s3, (bumped fs), log3, fired. split; [|split; [exact M4|split; [apply renamed_sent, R|exact F]]].
  refine (does_app _ _ _ _ [LMessage id m] _ _ _ D1 _ _); [|lia]. refine (does_app _ _ _ _ [] _ _ _ D2 D3 _). lia.
Qed.
Lemma stored_only sv0 f : on_message (sv_auto sv) m = Ok (GStore m) -> sv0 = set_fs sv f -> good (set_obj sv0 id (sent_sobj o)) (send_effects o id (reply_entity m result_success)).
Proof.
  intros P ->. destruct (stored_steps P) as (fops & s1 & fs & log & fired & D1 & M1 & R & F). assert (K1 : fi_toks s1 = fi_toks s + 1) by apply M1.
  set (fo := Fobj (SCfg fs [] None log) GRecv (so_closed (sent_sobj o)) (so_full (sent_sobj o)) (so_cb (sent_sobj o)) (if so_ran o then COver else CNot)).
  assert (E : fstep s1 (FMerged id None) = Ok (set_fobj s1 id fo, [XMerged id None])) by (cbn [fstep]; rewrite (moved_get _ _ _ _ _ _ _ M1); reflexivity).
  assert (M2 : moved s (set_fobj s1 id fo) id fo (Tcfg (sv_timer sv) [] fired) [] (fi_toks s + 1)).
  { eapply moved_trans; [exact M1|]. destruct M1 as (X1 & X2 & X3 & X4 & X5 & X6 & X7 & X8). rewrite <- X3, <- X6, <- X7. apply moved_set. }
  exists (fops ++ [FMerged id None]), (set_fobj s1 id fo). split; [|split; [|split]].
  - rewrite <- (app_nil_r (LMessage id m :: _)). eapply does_app; [exact D1| |cbn; lia]. eapply does_one; [exact E|exact Logic.I|reflexivity].
  - eapply (sim_moved name name added added sv); [exact SM|exact G| |exact M2| |intros t _; reflexivity|lia|reflexivity].
    + apply (smoved_from_fs _ _ _ _ f), smoved_set.
    + exists fs, log. rewrite AD. split; [reflexivity|]. split; [exact R|]. split; [eapply forall_le; [exact F|lia]|discriminate].
  - eapply moved_quiet; eauto.
  - cbn. lia.
Qed.
Lemma stored_merged f f2 c sv' evs : on_message (sv_auto sv) m = Ok (GStore m) ->
  message_and_dispatch (set_fs (set_obj (set_fs sv f) id (sent_sobj o)) f2) id now (sent_sobj o) (whole_message m c) = Ok (sv', evs) ->
  good sv' (send_effects o id (reply_entity m result_success) ++ evs).
Proof.
  intros P MD. destruct (stored_steps P) as (fops & s1 & fs & log & fired & D1 & M1 & R & F). assert (K1 : fi_toks s1 = fi_toks s + 1) by apply M1.
  set (fo := Fobj (SCfg fs [] None log) (GIcc (whole_message m c)) (so_closed (sent_sobj o)) (so_full (sent_sobj o)) (so_cb (sent_sobj o)) (if so_ran o then COver else CNot)).
  assert (E : fstep s1 (FMerged id (Some c)) = Ok (set_fobj s1 id fo, [XMerged id (Some c)])) by (cbn [fstep]; rewrite (moved_get _ _ _ _ _ _ _ M1); reflexivity).
  assert (M2 : moved s (set_fobj s1 id fo) id fo (Tcfg (sv_timer sv) [] fired) [] (fi_toks s + 1)).
  { eapply moved_trans; [exact M1|]. destruct M1 as (X1 & X2 & X3 & X4 & X5 & X6 & X7 & X8). rewrite <- X3, <- X6, <- X7. apply moved_set. }
  assert (D2 : does name s1 [FMerged id (Some c)] (set_fobj s1 id fo) []) by (eapply does_one; [exact E|exact Logic.I|reflexivity]).
  set (s2 := set_fobj s1 id fo) in M2, D2. clearbody s2. assert (K2 : fi_toks s2 = fi_toks s + 1) by apply M2. assert (T2 : fi_tc s2 = Tcfg (sv_timer sv) [] fired) by apply M2.
  assert (H2 : fi_handlers s2 = sv_handlers sv) by (destruct M2 as (_ & H2 & _); rewrite H2; apply (sm_handlers _ _ _ _ SM)).
  destruct (pass_steps name s2 id now (sent_sobj o) (whole_message m c) fs log _ _ _ _ (set_fs (set_obj (set_fs sv f) id (sent_sobj o)) f2) sv' evs fired (moved_get _ _ _ _ _ _ _ M2) T2 H2 R) as (l & s3 & fs' & log' & D3 & M3 & F3 & S3);
    [rewrite K2; eapply forall_le; [exact F|lia]|exact MD|].
  replace (fi_casts s2) with (@nil (Z * cast)) in M3 by (symmetry; apply M2). rewrite K2 in M3, F3. pose proof (moved_trans _ _ _ _ _ _ _ _ _ _ _ _ M2 M3) as M4.
  assert (K3 : fi_toks s3 = fi_toks s + 1) by apply M4.
  exists (fops ++ [FMerged id (Some c)] ++ l), s3. split; [|split; [|split]].
  - rewrite map_app. refine (does_app _ _ _ _ (LMessage id m :: _) _ _ _ D1 _ _); [|lia]. refine (does_app _ _ _ _ [] _ _ _ D2 D3 _). lia.
  - eapply (sim_moved name name added added sv); [exact SM|exact G| |exact M4| |intros t _; reflexivity|lia|reflexivity].
    + eapply smoved_trans; [|exact S3]. apply smoved_fs, (smoved_from_fs _ _ _ _ f), smoved_set.
    + exists fs', log'. rewrite AD. split; [reflexivity|]. split; [reflexivity|]. split; [exact F3|discriminate].
  - eapply moved_quiet; eauto.
  - lia.
Qed.
(** A packet could not be stored. *)
Lemma not_stored : on_message (sv_auto sv) m = Ok (GStore m) -> good (set_obj sv id (sent_sobj o)) (send_effects o id (reply_entity m result_fail)).
Proof.
  intros P. destruct (recv_step _ P) as (s1 & fs & log & fired & D1 & M1 & R & F).
  destruct (move_step s1 (FStored id false) fs log fired (GStore m) (GReply (reply_entity m result_fail) None) (XStored id false) _ (moved_get _ _ _ _ _ _ _ M1) M1) as [D2 M2];
    [cbn [fstep]; rewrite (moved_get _ _ _ _ _ _ _ M1); reflexivity|exact Logic.I|reflexivity|].
  assert (K1 : fi_toks s1 = fi_toks s) by apply M1.
  assert (D3 : does name s ([FRecv id m] ++ [FStored id false]) (set_fobj s1 id (at_ fs log (GReply (reply_entity m result_fail) None))) [LMessage id m]) by (refine (does_app _ _ _ _ [LMessage id m] _ _ [] D1 D2 _); cbn; lia).
  pose proof (only_reply _ _ _ _ _ _ (set_fs sv (sv_fs sv)) (sv_fs sv) D3 M2 R F eq_refl) as X. destruct sv. exact X.
Qed.
Lemma deliver_steps sv' evs : deliver sv id now o m = Ok (sv', evs) -> good sv' evs.
Proof.
  unfold deliver. intros E. assert (ON : on_message (sv_auto sv) m = on_message (sv_auto sv) m) by reflexivity. unfold on_message in ON at 2.
  assert (NB : on_message (sv_auto sv) m = Ok (GReply (reply_entity m result_unsupported) None) ->
    (let '(sv1, _, evs0) := sv_send sv id o (reply_entity m result_unsupported) in Ok (sv1, evs0)) = Ok (sv', evs) -> good sv' evs).
  { intros P X. destruct (sv_send sv id o (reply_entity m result_unsupported)) as [[sv1 o1] evs1] eqn:SS. inversion X; subst sv1 evs1. destruct (sv_send_eq _ _ _ _ _ _ _ SS) as (-> & -> & ->).
    destruct (recv_step _ P) as (s1 & fs & log & fired & D1 & M1 & R & F).
    pose proof (only_reply _ _ _ _ _ _ (set_fs sv (sv_fs sv)) (sv_fs sv) D1 M1 R F eq_refl) as Y. destruct sv. exact Y. }
  destruct (m_body m) as [|x|b] eqn:MB; try (apply NB; assumption). clear NB.
  destruct (negb (sv_auto sv) || negb (is_enable_packet (h_prop (m_hdr m)))) eqn:AU; [exact (only_pass _ _ ON E)|].
  destruct b; try exact (only_pass _ _ ON E).
  destruct (h_packet (m_hdr m)) as [[sum sq]|]; [|discriminate]. match type of E with context [a0801_packet ?a] => destruct (a0801_packet a) as [r|]; [|discriminate] end.
  cbv zeta in E. set (mf := Mpf _ _ _ _) in E. destruct (rdr_fail r).
  - destruct (sv_send sv id o (reply_entity m result_fail)) as [[sv1 o1] evs1] eqn:SS. inversion E; subst sv1 evs1. destruct (sv_send_eq _ _ _ _ _ _ _ SS) as (-> & -> & ->). apply not_stored, ON.
  - destruct (mp_write (sv_fs sv) mf sq (rdr_data r)) as [f1|er|]; [| |discriminate].
    2:{ destruct (sv_send sv id o (reply_entity m result_fail)) as [[sv1 o1] evs1] eqn:SS. inversion E; subst sv1 evs1. destruct (sv_send_eq _ _ _ _ _ _ _ SS) as (-> & -> & ->). apply not_stored, ON. }
    destruct (sv_send (set_fs sv f1) id o (reply_entity m result_success)) as [[sv1 o1] evs1] eqn:SS. destruct (sv_send_eq _ _ _ _ _ _ _ SS) as (-> & -> & ->). clear SS.
    assert (ST : forall x, Ok (set_obj (set_fs sv f1) id (sent_sobj o), x) = Ok (sv', evs) -> x = send_effects o id (reply_entity m result_success) -> good sv' evs).
    { intros x X ->. inversion X; subst. exact (stored_only _ f1 ON eq_refl). }
    destruct (negb (sq =? sum)); [exact (ST _ E eq_refl)|]. destruct (is_full f1 mf) as [full| |]; try discriminate. cbn [bind] in E. destruct (negb full); [exact (ST _ E eq_refl)|].
    destruct (mp_merge f1 mf) as [[content f2]|er|]; [|exact (ST _ E eq_refl)|discriminate].
    match type of E with (do (_, _) <- ?X ; _) = _ => destruct X as [[sv2 evs2]| |] eqn:MD; try discriminate end. cbn [bind] in E. inversion E; subst sv2 evs.
    apply (stored_merged f1 f2 content); [exact ON|]. unfold whole_message. rewrite MB. exact MD.
Qed.
End DELIVER.
