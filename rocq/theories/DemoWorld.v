(** Histories of a whole process, its goroutines interleaved, used as examples. *)
From Verif Require Import Base LibBase Bits Env EntTerm EntPlat Registry Message Codec Timer Session Multipart Server Host Overlap Fine World.
From Verif Require Import SpecGeo SpecEntity SpecMsg SpecStream SpecSession SpecMulti SpecTimer SpecServer SpecHost SpecOverlap SpecFine SpecWorld Demo DemoServer DemoHost.

(** The bytes of two packets of an upload: terminal 138, medium 7; terminal 139, medium 8 *)
Definition bytes_of (m : message) : bytes := match codec_send demo_env None 0 None m with Ok d => d | _ => [] end.
Definition first_upload : bytes := Eval vm_compute in bytes_of (packet 138 1 7 2 1 [1; 2]) ++ bytes_of (packet 138 2 7 2 2 [3]).
Definition second_upload : bytes := Eval vm_compute in bytes_of (packet 139 1 8 2 2 [9]) ++ bytes_of (packet 139 2 8 2 1 [7; 8]).
(** Every goroutine of two sessions takes a step if it can. *)
Definition both_move (id : Z) : list wop :=
  [WTurn id (Avail 40); WFile id; WDo (FReply id)] ++ flat_map (fun tok => [WDo (FNext id tok); WDo (FWire id tok); WDo (FAdd id tok)]) [0; 1; 2; 3; 4; 5] ++
  [WTake id; WDo (FIcc id); WDo (FTake id); WDo (FLoad id); WDo (FRun id); WWrite id 0 None; WDo (FReturn id)] ++ [WDo (FClock id 5); WDo (FDel id); WDo (FIns id)].
Definition opening : list wop :=
  [WDo (FHandler 0x0801 9); WDo (FConnect 1); WDo (FConnect 2); WDo (FClock 1 0); WDo (FClock 2 1); WDo (FDel 2); WDo (FIns 2); WDo (FDel 1); WDo (FIns 1); WDo (FAddCb 1); WDo (FAddCb 2);
   WArrive 1 (firstn 30 first_upload); WArrive 2 second_upload; WDo (FStart 1 true E8104)].
Definition some_rounds (n : nat) : list wop := concat (repeat (both_move 1 ++ both_move 2) n).
(** Then terminal 139 sends something that is no frame and the timer closes the other session. *)
Definition two_uploads : list wop :=
  opening ++ some_rounds 3 ++ [WArrive 1 (skipn 30 first_upload)] ++ some_rounds 20 ++ [WArrive 2 [126; 0; 2; 126]] ++ some_rounds 2 ++ [WDo (FTick 66); WDo FGet; WDo FTimeout] ++ some_rounds 2.
Definition world_of (mg : bool) (ops : list wop) : res (world * list wevent) := wrun demo_env None (world_init mg 60 empty_fs) ops.
Definition happened (mg : bool) (ops : list wop) : list wevent := match world_of mg ops with Ok (_, e) => e | _ => [] end.
Definition the_events : list wevent := happened true two_uploads.
Definition lawful_ops (ops : list wop) : bool := forallb (fun o => match o with WArrive _ d => forallb (fun b => (0 <=? b) && (b <? 256)) d | _ => true end) ops.
Lemma lawful_legal ops : lawful_ops ops = true -> wlegal ops.
Proof.
  unfold lawful_ops, wlegal. rewrite forallb_forall, Forall_forall. intros H o I. specialize (H o I). destruct o; auto. rewrite forallb_forall in H. apply Forall_forall. intros b Ib. specialize (H b Ib). unfold is_byte. lia.
Qed.
Lemma runs_on mg ops : lawful_ops ops = true -> (match world_of mg ops with Ok _ => true | _ => false end) = true -> occurs demo_env None mg 60 empty_fs (happened mg ops).
Proof.
  intros L O. split; [exact I|]. exists ops, (match world_of mg ops with Ok (w, _) => w | _ => world_init mg 60 empty_fs end). split; [apply lawful_legal; exact L|].
  unfold happened, world_of in *. destruct (wrun _ _ _ ops) as [[w e]|er|]; [reflexivity|discriminate|discriminate].
Qed.
Lemma events_occur : occurs demo_env None true 60 empty_fs the_events.
Proof. apply runs_on; vm_compute; reflexivity. Qed.
(** Only sessions 1 and 2 receive packets, of different uploads. *)
Lemma two_separate l : forallb (fun ev => match ev with XRecv j _ => (j =? 1) || (j =? 2) | _ => true end) l = true ->
  forallb (fun p => forallb (fun q => negb (same_upload (pk_up p) (pk_up q)) && negb (same_upload (pk_up q) (pk_up p))) (packets true 2 l)) (packets true 1 l) = true -> separate true l.
Proof.
  intros A Q. assert (P : forall i p, In p (packets true i l) -> i = 1 \/ i = 2).
  { intros i p I. unfold packets in I. apply in_flat_map in I as (m & I & _). unfold got_by in I. apply in_flat_map in I as (ev & I1 & I2). rewrite forallb_forall in A. specialize (A ev I1).
    destruct ev; try contradiction. destruct (Z.eqb_spec id i) as [->|]; [|contradiction]. lia. }
  rewrite forallb_forall in Q. intros i j p q N Ip Iq. destruct (P _ _ Ip) as [->| ->], (P _ _ Iq) as [->| ->]; try lia.
  - specialize (Q p Ip). rewrite forallb_forall in Q. specialize (Q q Iq). apply andb_true_iff in Q as [Q _]. apply negb_true_iff in Q. exact Q.
  - specialize (Q q Iq). rewrite forallb_forall in Q. specialize (Q p Ip). apply andb_true_iff in Q as [_ Q]. apply negb_true_iff in Q. exact Q.
Qed.
Lemma events_separate : separate true (inside the_events).
Proof. apply two_separate; vm_compute; reflexivity. Qed.
(** What crashes *)
Definition three_bytes_arrive : list wop := [WDo (FConnect 1); WDo (FClock 1 0); WDo (FDel 1); WDo (FIns 1); WDo (FAddCb 1); WArrive 1 [126; 5; 126]] ++ concat (repeat (both_move 1) 3).
Definition absent_parameter : list wop := [WDo (FConnect 1); WDo (FStart 1 false (E8103 (T8103 [None]))); WDo (FNext 1 0); WDo (FWire 1 0); WTake 1; WWrite 1 0 None].
(** An upload arrives; nothing moves any more once it is merged and answered. *)
Definition one_upload : list wop :=
  [WDo (FConnect 1); WDo (FClock 1 0); WDo (FDel 1); WDo (FIns 1); WDo (FAddCb 1); WArrive 1 first_upload] ++ concat (repeat (both_move 1) 24).
Definition resting : world := match world_of true one_upload with Ok (w, _) => w | _ => world_init true 60 empty_fs end.
Definition rested_events : list wevent := Eval vm_compute in happened true one_upload.
Lemma rested_world : world_of true one_upload = Ok (resting, rested_events).
Proof.
  assert (H : match world_of true one_upload with Ok (_, e) => Some e | _ => None end = Some rested_events) by (vm_compute; reflexivity).
  unfold resting. destruct (world_of true one_upload) as [[w e]| |]; [|discriminate|discriminate]. injection H as ->. reflexivity.
Qed.
Lemma world_run mg ops r : world_of mg ops = r -> wrun demo_env None (world_init mg 60 empty_fs) ops = r.
Proof. intro H. exact H. Qed.
Lemma rested_run : wrun demo_env None (world_init true 60 empty_fs) one_upload = Ok (resting, rested_events).
Proof. exact (world_run true one_upload _ rested_world). Qed.
Definition resting_fine : Fine.fine := Eval vm_compute in wo_fine resting.
Definition resting_conns : list (Z * conn) := Eval vm_compute in wo_conns resting.
Lemma resting_is : resting = World resting_fine resting_conns (wo_fs resting) (wo_up resting).
Proof.
  assert (A : wo_fine resting = resting_fine) by (vm_compute; reflexivity). assert (B : wo_conns resting = resting_conns) by (vm_compute; reflexivity).
  rewrite <- A, <- B. destruct resting; reflexivity.
Qed.
Lemma rests f u op : wself op = true -> wstep demo_env None (World resting_fine resting_conns f u) op = Ok (World resting_fine resting_conns f u, []).
Proof.
  intro B.
  assert (O : forall id, fobj_get (fi_objs resting_fine) id = if 1 =? id then fobj_get (fi_objs resting_fine) 1 else None) by (intro; unfold resting_fine; cbn [fi_objs fobj_get]; reflexivity).
  assert (C : forall id, conn_get resting_conns id = if 1 =? id then conn_get resting_conns 1 else None) by (intro; unfold resting_conns; cbn [conn_get]; reflexivity).
  destruct op as [op|id d|id [k|e]|id|id|id rnd wr|id|id k]; try discriminate B.
  - destruct op; try discriminate B; try reflexivity; cbn [wstep]; unfold act; cbn [wo_fine fstep]; try (rewrite (O id); destruct (Z.eqb_spec 1 id) as [<-|N]; reflexivity).
  - cbn [wstep]. unfold receive, pc_of. cbn [wo_fine wo_conns]. rewrite (O id), (C id). destruct (Z.eqb_spec 1 id) as [<-|N]; [|reflexivity]. cbn [conn_get resting_conns cn_at Z.eqb Pos.eqb cn_in]. rewrite firstn_nil. reflexivity.
  - cbn [wstep]. unfold access, pc_of. cbn [wo_fine wo_conns]. rewrite (O id). destruct (1 =? id); reflexivity.
  - cbn [wstep]. unfold wtake. cbn [wo_fine wo_conns]. rewrite (C id). destruct (1 =? id); reflexivity.
  - cbn [wstep]. unfold wwrite. cbn [wo_fine wo_conns]. rewrite (C id). destruct (1 =? id); reflexivity.
  - cbn [wstep]. unfold wquit. cbn [wo_fine wo_conns]. rewrite (C id). destruct (Z.eqb_spec 1 id) as [<-|N]; reflexivity.
Qed.
Lemma rests_at w f u : w = World resting_fine resting_conns f u -> forall op, wself op = true -> wstep demo_env None w op = Ok (w, []).
Proof. intros -> op. exact (rests f u op). Qed.
Lemma resting_rests op : wself op = true -> wstep demo_env None resting op = Ok (resting, []).
Proof. exact (rests_at resting _ _ resting_is op). Qed.
(** 25 calls of Send before the send loop takes anything; the last one is refused. *)
Definition too_many : list wop :=
  [WDo (FConnect 1)] ++ map (fun _ => WDo (FStart 1 false E8104)) (seq 0 25) ++ flat_map (fun n => [WDo (FNext 1 (Z.of_nat n)); WDo (FWire 1 (Z.of_nat n))]) (seq 0 25).
Definition too_many_events : list wevent := Eval vm_compute in happened false too_many.
Lemma too_many_occur : occurs demo_env None false 60 empty_fs too_many_events.
Proof. exact (runs_on false too_many ltac:(vm_compute; reflexivity) ltac:(vm_compute; reflexivity)). Qed.
(** The first packet of an upload is about to be written. *)
Definition nearly_stored : list wop :=
  [WDo (FConnect 1); WDo (FClock 1 0); WDo (FDel 1); WDo (FIns 1); WDo (FAddCb 1); WArrive 1 first_upload; WTurn 1 (Avail 100); WTurn 1 (Avail 100); WFile 1; WFile 1].
Definition state_of (r : res (world * list wevent)) : world := match r with Ok (w, _) => w | _ => world_init true 60 empty_fs end.
Definition events_in (r : res (world * list wevent)) : list wevent := match r with Ok (_, e) => e | _ => [] end.
Lemma run_state r : (match r with Ok _ => true | _ => false end) = true -> r = Ok (state_of r, events_in r).
Proof. destruct r as [[w e]| |]; [reflexivity|discriminate|discriminate]. Qed.
Definition nearly : world := state_of (world_of true nearly_stored).
Definition nearly_events : list wevent := events_in (world_of true nearly_stored).
Lemma nearly_run : wrun demo_env None (world_init true 60 empty_fs) nearly_stored = Ok (nearly, nearly_events).
Proof. apply world_run. unfold nearly, nearly_events. apply run_state. vm_compute. reflexivity. Qed.
Definition then_stored : world := state_of (wstep demo_env None nearly (WFile 1)).
Lemma then_run : wstep demo_env None nearly (WFile 1) = Ok (then_stored, [WFine (XStored 1 true)]).
Proof.
  assert (H : events_in (wstep demo_env None nearly (WFile 1)) = [WFine (XStored 1 true)]) by (vm_compute; reflexivity). rewrite <- H. unfold then_stored. apply run_state. vm_compute. reflexivity.
Qed.
