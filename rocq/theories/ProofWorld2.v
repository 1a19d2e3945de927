(** The whole process goroutine by goroutine: steps of the server and the channels. *)
From Verif Require Import Base LibBase Env EntTerm EntPlat Registry Message Codec Timer Session Multipart Server Host Overlap Fine World.
From Verif Require Import SpecGeo SpecEntity SpecMsg SpecStream SpecSession SpecMulti SpecTimer SpecServer SpecFine SpecHost SpecWorld.
From Verif Require Import ProofServer4 ProofHost ProofHost2 ProofFine ProofFine2 ProofFine6 ProofFine13 ProofWorld.

(** ** Channels *)
Definition fuller (id : Z) (e : list fevent) (c : conn) : conn := with_send c (cn_queue c ++ handed id e) (cn_flight c) (cn_sending c).
Definition now_full (c : conn) : bool := (length (cn_queue c) =? queue_size)%nat.
Definition with_full (o : fobj) (b : bool) : fobj := Fobj (fo_cfg o) (fo_pc o) (fo_closed o) b (fo_cb o) (fo_close o).
Lemma with_send_same c : with_send c (cn_queue c) (cn_flight c) (cn_sending c) = c. Proof. destruct c; reflexivity. Qed.
Lemma fuller_nil id e c : handed id e = [] -> fuller id e c = c.
Proof. intro H. unfold fuller. rewrite H, app_nil_r. apply with_send_same. Qed.
Lemma put_get id e : forall l, conn_get (fold_left put_in e l) id = option_map (fuller id e) (conn_get l id).
Proof.
  induction e as [|x e IH]; intros l; cbn [fold_left].
  - destruct (conn_get l id); cbn; [rewrite fuller_nil by reflexivity; reflexivity|reflexivity].
  - rewrite IH. assert (S : put_in l x = l -> match x with XWire i _ (Some _) => i <> id | _ => True end -> option_map (fuller id e) (conn_get (put_in l x) id) = option_map (fuller id (x :: e)) (conn_get l id)).
    { intros -> N. destruct (conn_get l id) as [c|]; [|reflexivity]. cbn [option_map]. unfold fuller. f_equal. f_equal. f_equal. change (x :: e) with ([x] ++ e). rewrite handed_app.
      destruct x; try reflexivity. destruct sent; try reflexivity. cbn. destruct (Z.eqb_spec id0 id); [contradiction|reflexivity]. }
    destruct x; try (apply S; [reflexivity|exact Logic.I]). destruct sent as [m|]; [|apply S; [reflexivity|exact Logic.I]]. cbn [put_in].
    destruct (conn_get l id0) as [c|] eqn:G.
    + rewrite conn_get_set. destruct (Z.eqb_spec id0 id) as [->|N].
      * rewrite G. cbn [option_map]. unfold fuller. cbn [with_send cn_queue cn_flight cn_sending]. cbn [handed flat_map]. rewrite Z.eqb_refl, <- app_assoc. reflexivity.
      * destruct (conn_get l id) as [c'|]; [|reflexivity]. cbn [option_map]. unfold fuller. cbn [handed flat_map]. destruct (Z.eqb_spec id0 id); [contradiction|reflexivity].
    + destruct (Z.eqb_spec id0 id) as [->|N]; [rewrite G; reflexivity|]. destruct (conn_get l id) as [c'|]; [|reflexivity]. cbn [option_map]. unfold fuller. cbn [handed flat_map]. destruct (Z.eqb_spec id0 id); [contradiction|reflexivity].
Qed.
(** Recording the state of the channels *)
Definition queue_ops (l : list (Z * conn)) (e : list fevent) : list fop :=
  flat_map (fun ev => match ev with XWire id _ (Some _) => queue_now l id | _ => [] end) e.
Definition refilled (l : list (Z * conn)) (e : list fevent) (id : Z) (o : fobj) : fobj :=
  match handed id e, conn_get l id with _ :: _, Some c => with_full o (now_full c) | _, _ => o end.
Lemma queue_run l e : forall s, exists s2, frun s (queue_ops l e) = Ok (s2, []) /\
  forall id, fobj_get (fi_objs s2) id = option_map (refilled l e id) (fobj_get (fi_objs s) id).
Proof.
  induction e as [|x e IH]; intros s.
  - exists s. split; [reflexivity|]. intros id. destruct (fobj_get (fi_objs s) id); reflexivity.
  - assert (S : queue_ops l (x :: e) = queue_ops l e -> (forall id, handed id [x] = []) \/ (exists i t m, x = XWire i t (Some m) /\ conn_get l i = None) -> exists s2, frun s (queue_ops l (x :: e)) = Ok (s2, []) /\
      forall id, fobj_get (fi_objs s2) id = option_map (refilled l (x :: e) id) (fobj_get (fi_objs s) id)).
    { intros -> N. destruct (IH s) as (s2 & R & G). exists s2. split; [exact R|]. intros id. rewrite G. destruct (fobj_get (fi_objs s) id) as [o|]; [|reflexivity]. cbn [option_map]. f_equal. unfold refilled.
      change (x :: e) with ([x] ++ e). rewrite handed_app. destruct N as [N|(i & t & m & -> & C)]; [rewrite N; reflexivity|]. cbn. destruct (Z.eqb_spec i id) as [->|]; [|reflexivity]. rewrite C. destruct (handed id e); reflexivity. }
    destruct x; try (apply S; [reflexivity|left; reflexivity]). destruct sent as [m|]; [|apply S; [reflexivity|left; reflexivity]].
    destruct (conn_get l id) as [c|] eqn:C.
    2:{ apply S; [unfold queue_ops; cbn [flat_map]; unfold queue_now at 1; rewrite C; reflexivity|right; eauto]. }
    clear S. unfold queue_ops. cbn [flat_map]. unfold queue_now at 1. rewrite C. cbn [app]. fold (queue_ops l e). cbn [frun fstep].
    destruct (fobj_get (fi_objs s) id) as [o|] eqn:Go; cbn [bind].
    + match goal with |- context [frun ?s1 (queue_ops l e)] => destruct (IH s1) as (s2 & R & G) end. rewrite R. cbn [bind]. exists s2. split; [reflexivity|]. intros j. rewrite G, set_fobj_get.
      fold (now_full c). fold (with_full o (now_full c)). destruct (Z.eqb_spec id j) as [<-|N].
      * rewrite Go. cbn [option_map]. f_equal. unfold refilled. rewrite C. cbn [handed flat_map]. rewrite Z.eqb_refl. cbn [app]. fold (handed id e). destruct (handed id e); reflexivity.
      * destruct (fobj_get (fi_objs s) j) as [oj|]; [|reflexivity]. cbn [option_map]. f_equal. unfold refilled. cbn [handed flat_map]. destruct (Z.eqb_spec id j); [contradiction|reflexivity].
    + destruct (IH s) as (s2 & R & G). rewrite R. cbn [bind]. exists s2. split; [reflexivity|]. intros j. rewrite G. destruct (fobj_get (fi_objs s) j) as [oj|] eqn:Gj; [|reflexivity]. cbn [option_map]. f_equal.
      unfold refilled. cbn [handed flat_map]. destruct (Z.eqb_spec id j) as [->|]; [congruence|reflexivity].
Qed.
Lemma queue_good l e : Forall good_op (queue_ops l e).
Proof.
  unfold queue_ops. apply Forall_forall. intros op I. apply in_flat_map in I as (x & _ & I). destruct x; try contradiction. destruct sent; try contradiction. unfold queue_now in I.
  destruct (conn_get l id); [|contradiction]. destruct I as [<-|[]]. exact Logic.I.
Qed.

(** ** A step of the server *)
Definition reached (merging : bool) (ka : Z) (evs : list fevent) (s : fine) : Prop := exists ops, fine_received ops /\ frun (fine_init merging ka) ops = Ok (s, evs).
Lemma frun_app a : forall b s s1 e1 s2 e2, frun s a = Ok (s1, e1) -> frun s1 b = Ok (s2, e2) -> frun s (a ++ b) = Ok (s2, e1 ++ e2).
Proof.
  induction a as [|op a IH]; intros b s s1 e1 s2 e2 A B; cbn [frun app] in *.
  - injection A as <- <-. exact B.
  - destruct (fstep s op) as [[s0 e0]| |]; try discriminate. cbn [bind] in *. destruct (frun s0 a) as [[s3 e3]| |] eqn:E; try discriminate. cbn [bind] in A. injection A as <- <-.
    rewrite (IH _ _ _ _ _ _ E B). cbn [bind]. rewrite app_assoc. reflexivity.
Qed.
Lemma reached_more merging ka evs s ops s' e : reached merging ka evs s -> Forall good_op ops -> frun s ops = Ok (s', e) -> reached merging ka (evs ++ e) s'.
Proof. intros (pre & G & R) H E. exists (pre ++ ops). split; [apply Forall_app; auto|]. eapply frun_app; eauto. Qed.
Lemma reached_whole merging ka evs s : reached merging ka evs s -> whole_state merging ka evs s.
Proof. intros (ops & G & R). eapply whole_run; eauto. Qed.
Lemma reached_step merging ka evs s op : reached merging ka evs s -> good_op op -> exists s' e, fstep s op = Ok (s', e).
Proof. intros R G. apply reached_whole in R. destruct R as [C Ti Ca T Cs Tg K]. eapply fstep_fine; eauto. Qed.
(** What becomes of a session and its connection *)
Record acted (id : Z) (e : list fevent) (c : conn) (o o' : fobj) : Prop := {
  ac_closed : fo_closed o = true -> fo_closed o' = true;
  ac_full : fo_full o = now_full c -> fo_full o' = now_full (fuller id e c);
  ac_hand : handed id e = [] \/ exists m, handed id e = [m] /\ fo_full o = false /\ fo_closed o = false /\ plain_msg m;
  ac_end : fo_pc o = GEnd -> fo_pc o' = GEnd;
  ac_recv : got_by id e = [] -> fails id e = false -> fo_pc o = GRecv -> fo_pc o' = GRecv;
  ac_stay : fails id e = false -> fo_pc o' = GEnd -> fo_pc o = GEnd }.
Lemma act_ok merging ka evs w op : reached merging ka evs (wo_fine w) -> good_op op -> (forall id b, op <> FQueue id b) ->
  exists w' e s1, act w op = Ok (w', map WFine e) /\ fstep (wo_fine w) op = Ok (s1, e) /\ wo_fs w' = wo_fs w /\ wo_up w' = wo_up w /\ reached merging ka (evs ++ e) (wo_fine w') /\
    (forall id, conn_get (wo_conns w') id = option_map (fuller id e) (conn_get (wo_conns w) id)) /\
    (forall id, pc_of (wo_fine w') id = pc_of s1 id /\ is_closed (wo_fine w') id = is_closed s1 id) /\
    (forall id, fobj_get (fi_objs (wo_fine w)) id = None -> op <> FConnect id -> fobj_get (fi_objs (wo_fine w')) id = None) /\
    (forall id o c, fobj_get (fi_objs (wo_fine w)) id = Some o -> conn_get (wo_conns w) id = Some c -> exists o', fobj_get (fi_objs (wo_fine w')) id = Some o' /\ acted id e c o o').
Proof.
  intros R G NQ. destruct (reached_step _ _ _ _ _ R G) as (s1 & e & E). pose proof (reached_more merging ka evs _ [op] s1 e R ltac:(constructor; auto)) as R1.
  assert (F1 : frun (wo_fine w) [op] = Ok (s1, e)) by (cbn [frun]; rewrite E; cbn [bind]; rewrite app_nil_r; reflexivity). specialize (R1 F1).
  destruct (queue_run (fold_left put_in e (wo_conns w)) e s1) as (s2 & Q & GQ). exists (World s2 (fold_left put_in e (wo_conns w)) (wo_fs w) (wo_up w)), e, s1. cbn [wo_fine wo_conns wo_fs wo_up].
  unfold act. rewrite E. cbn [bind]. fold (queue_ops (fold_left put_in e (wo_conns w)) e). rewrite Q. cbn [bind]. rewrite app_nil_r.
  split; [reflexivity|]. split; [reflexivity|]. split; [reflexivity|]. split; [reflexivity|].
  split; [pose proof (reached_more merging ka _ _ _ s2 [] R1 (queue_good _ _) Q) as X; rewrite app_nil_r in X; exact X|]. split; [intros; apply put_get|].
  split.
  { intros id. unfold pc_of, is_closed. rewrite GQ. destruct (fobj_get (fi_objs s1) id) as [o|]; [|auto]. cbn [option_map]. unfold refilled. destruct (handed id e); auto. destruct (conn_get _ id); auto. }
  destruct (fstep_does _ _ _ _ G E) as [(-> & ->)|D].
  - split; [intros id N _; rewrite GQ, N; reflexivity|]. intros id o c Go Gc. exists o. rewrite GQ, Go. split; [reflexivity|]. constructor; auto. rewrite fuller_nil by reflexivity. auto.
  - split.
    + intros id N C. rewrite GQ, (does_none _ _ _ _ D N); [reflexivity|]. apply (fstep_events _ _ _ _ id E), C.
    + intros id o c Go Gc. destruct e as [|x e'].
      { exists o. assert (N : forall i b, ~ (exists o0, fobj_get (fi_objs (wo_fine w)) i = Some o0 /\ op = FQueue i b)) by (intros i b (o0 & _ & X); exact (NQ _ _ X)).
        assert (SS : s1 = wo_fine w \/ exists i b, op = FQueue i b).
        { clear -E. destruct op; cbn -[sstep tstep fclose] in E; unfold bind in E; eauto; left;
          repeat match type of E with
          | Ok (fclose _ _ _) = _ => fail 1
          | Ok _ = Ok _ => inversion E; subst; clear E; reflexivity
          | Panic = Ok _ => discriminate E
          | Err _ = Ok _ => discriminate E
          | context [match ?x with _ => _ end] => destruct x eqn:?
          end; try (exfalso; discriminate E); try (inversion E; subst; reflexivity); try (inversion E; fail).
          unfold fclose in E. destruct (fo_closed f); [inversion E; reflexivity|inversion E]. }
        destruct SS as [->|(i & b & X)]; [|destruct (NQ _ _ X)]. rewrite GQ, Go. cbn [option_map]. unfold refilled. cbn [handed flat_map]. split; [reflexivity|]. constructor; auto. rewrite fuller_nil by reflexivity. auto. }
      destruct (does_effect _ _ _ D ltac:(discriminate) _ _ Go) as (o' & Go' & EF). rewrite GQ, Go'. cbn [option_map]. eexists. split; [reflexivity|].
      unfold refilled. rewrite put_get, Gc. cbn [option_map]. destruct EF as [E1 E2 E3 E4 E5 E6]. destruct (handed id (x :: e')) as [|m l] eqn:H.
      * constructor; auto. intros F. rewrite fuller_nil by exact H. congruence.
      * rewrite <- H in E3. constructor; auto.
Qed.
