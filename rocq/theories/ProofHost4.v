(** The whole process: whole histories and their consequences. *)
From Verif Require Import Base LibBase Bits LibBits Env Registry Message Codec Timer Session Multipart Server Host.
From Verif Require Import SpecGeo SpecEntity SpecMsg SpecStream SpecSession SpecMulti SpecTimer SpecServer.
From Verif Require Import ProofStream ProofStream2 ProofMsg ProofMsg2 ProofServer ProofServer2 ProofServer3 ProofServer4 ProofServer6 ProofServer7 ProofHost ProofHost2 ProofHost3.
From Verif Require Import SpecHost.

Section Host.
Variables (env : Env) (key : option Z) (o : options) (prior : list mop) (sv0 : server).
Hypothesis KEY : key_ok env key.
Notation core := (core o prior sv0).
Notation hinv := (hinv env key o prior sv0).
Notation recv_ok := (recv_ok env key).
Notation send_ok := (send_ok env).

(** ** The remaining steps *)
Lemma idle_inv tr h hop : hinv tr h -> accepted (hops tr ++ [hop]) = accepted (hops tr) -> requested (hops tr ++ [hop]) = requested (hops tr) ->
  (forall x, conn_get (ho_conns h) x <> None -> arrived x (hops tr ++ [hop]) = arrived x (hops tr)) ->
  (forall x, conn_get (ho_conns h) x = None -> ~ In x (accepted (hops tr)) -> arrived x (hops tr ++ [hop]) = []) -> hinv (tr ++ [(hop, [])]) h.
Proof.
  intros V A R AR AN. apply quiet_inv with (h := h); auto. intros x. cbn [writes flat_map]. rewrite app_nil_r. pose proof (hv_conn _ _ _ _ _ _ _ V x) as H. specialize (AR x). specialize (AN x). destruct (conn_get (ho_conns h) x) as [cx|].
  - destruct H as (Ix & Rx & Sx). split; auto. split; auto. apply others; auto. apply AR. discriminate.
  - destruct H as (H1 & H2 & H3). auto.
Qed.
Lemma idle_simple tr h hop : hinv tr h -> accepted (hops tr ++ [hop]) = accepted (hops tr) -> requested (hops tr ++ [hop]) = requested (hops tr) ->
  (forall x, arrived x (hops tr ++ [hop]) = arrived x (hops tr)) -> hinv (tr ++ [(hop, [])]) h.
Proof. intros V A R AR. apply idle_inv; auto. intros x G _. rewrite AR. pose proof (hv_conn _ _ _ _ _ _ _ V x) as H. rewrite G in H. apply H. Qed.
Ltac names := rewrite ?accepted_snoc, ?requested_snoc, ?arrived_snoc, ?app_nil_r; reflexivity.
Lemma hstep_quit tr h id : hinv tr h -> hinv (tr ++ [(HQuit id, [])]) (quit h id).
Proof.
  intros V. assert (K : hinv (tr ++ [(HQuit id, [])]) h) by (apply idle_simple; auto; intros; names).
  unfold quit. destruct (conn_get (ho_conns h) id) as [c|] eqn:G; auto. destruct (obj_get (sv_objs (ho_sv h)) id) as [ob|] eqn:OB; auto. destruct (cn_flight c) eqn:FL; auto. destruct (so_closed ob) eqn:CL; auto.
  destruct (in_conn _ _ _ _ _ _ _ _ _ V G) as (I & R & S). apply set_send; auto; try (intros; names). cbn [writes flat_map]. rewrite app_nil_r.
  destruct S as [(ws & lost & S1 & F1 & F2) S2 S3 S4]. constructor; auto.
  - exists ws, lost. rewrite S1. unfold in_flight. rewrite FL. split; auto. split; auto. cbn. discriminate.
  - intros _. split; auto. destruct V as [(VI & _) _ _ _]. pose proof (si_objs _ _ _ _ _ VI id) as H. rewrite OB in H. rewrite <- (oi_closed _ _ _ _ _ H). exact CL.
Qed.
Lemma hstep_key tr h id k : hinv tr h -> exists h', host_step env key h (HKey id k) = Ok (h', []) /\ hinv (tr ++ [(HKey id k, [])]) h'.
Proof.
  intros V. cbn [host_step]. destruct (conn_get (ho_conns h) id) as [c|] eqn:G; [|eexists; split; [reflexivity|]; apply idle_simple; auto; intros; names].
  eexists. split; [reflexivity|]. destruct (in_conn _ _ _ _ _ _ _ _ _ V G) as (I & R & S). apply quiet_inv with (h := h); auto; try names.
  intros x. cbn [set_conn ho_conns writes flat_map]. rewrite conn_get_set, app_nil_r. destruct (Z.eqb_spec id x) as [<-|N].
  - split; auto. split; [apply others; [|names]; destruct R; constructor; auto|]. destruct S; constructor; auto.
  - pose proof (hv_conn _ _ _ _ _ _ _ V x) as H. destruct (conn_get (ho_conns h) x) as [cx|].
    + destruct H as (Ix & Rx & Sx). split; auto. split; auto. apply others; auto. names.
    + rewrite arrived_snoc, app_nil_r. exact H.
Qed.
Lemma hstep_arrive tr h id d : hinv tr h -> In id (accepted (hops tr)) -> bytes_ok d -> exists h', host_step env key h (HArrive id d) = Ok (h', []) /\ hinv (tr ++ [(HArrive id d, [])]) h'.
Proof.
  intros V I B. cbn [host_step]. destruct (conn_get (ho_conns h) id) as [c|] eqn:G.
  2:{ exfalso. pose proof (hv_conn _ _ _ _ _ _ _ V id) as H. rewrite G in H. destruct H. contradiction. }
  eexists. split; [reflexivity|]. destruct (in_conn _ _ _ _ _ _ _ _ _ V G) as (_ & R & S).
  assert (AR : forall x, x <> id -> arrived x (hops tr ++ [HArrive id d]) = arrived x (hops tr)). { intros x N. rewrite arrived_snoc. destruct (Z.eqb_spec id x); [congruence|]. apply app_nil_r. }
  apply quiet_inv with (h := h); auto; try names.
  intros x. cbn [set_conn ho_conns writes flat_map]. rewrite conn_get_set, app_nil_r. destruct (Z.eqb_spec id x) as [<-|N].
  - split; auto. split; [|apply send_recv; auto]. destruct R as [R1 (past & rest & A & P & M)]. constructor; rewrite arrived_snoc, Z.eqb_refl; [apply bytes_ok_app; auto|].
    exists past, (rest ++ d). split; [rewrite A, app_assoc; reflexivity|]. split; auto. cbn [with_recv cn_at cn_buf cn_in]. destruct (cn_at c).
    + subst rest. rewrite app_assoc. reflexivity.
    + destruct M as (-> & M). rewrite app_assoc. auto.
    + destruct M as (M & K). split; auto. destruct K as [(e & K)|[K|K]].
      * left. exists e. apply says_stable. auto.
      * right. left. intros X. apply K. eapply manageable_app; eauto.
      * right. right. intros X. apply K. eapply unbroken_snoc; eauto.
  - pose proof (hv_conn _ _ _ _ _ _ _ V x) as H. destruct (conn_get (ho_conns h) x) as [cx|].
    + destruct H as (Ix & Rx & Sx). split; auto. split; auto. apply others; auto.
    + rewrite AR by auto. exact H.
Qed.
(** The two ways to crash *)
Definition crashes (tr : htrace) (op : host_op) : Prop :=
  match op with
  | HTurn id _ _ => snd (says env key (arrived id (hops tr))) = GotPanic
  | HWrite id _ _ => exists m, In m (sent_to id (inner tr)) /\ ~ tame env m
  | _ => False
  end.
Lemma hstep_all tr h op : hinv tr h -> hlegal_op (hops tr) op ->
  (exists h' evs, host_step env key h op = Ok (h', evs) /\ hinv (tr ++ [(op, evs)]) h') \/ (host_step env key h op = Panic /\ crashes tr op).
Proof.
  intros V L. destruct op.
  - left. destruct op; try (apply hstep_op; auto; intros; discriminate). cbn [host_step]. apply hstep_connect; auto.
  - left. destruct L as (L1 & L2). destruct (hstep_arrive tr h id d V L1 L2) as (h' & K). eauto.
  - apply hstep_turn; auto.
  - left. apply hstep_take; auto.
  - apply hstep_write; auto.
  - left. eexists _, _. split; [reflexivity|]. apply hstep_quit; auto.
  - left. destruct (hstep_key tr h id k V) as (h' & K). eauto.
Qed.
Lemma host_all ops : forall tr h, hinv tr h -> hlegal (hops tr ++ ops) ->
  (exists h' tr', host_run env key h ops = Ok (h', tr') /\ hops tr' = ops /\ hinv (tr ++ tr') h') \/
  (host_run env key h ops = Panic /\ exists pre op post h1 tr1, ops = pre ++ op :: post /\ host_run env key h pre = Ok (h1, tr1) /\ hinv (tr ++ tr1) h1 /\ hops tr1 = pre /\ crashes (tr ++ tr1) op).
Proof.
  induction ops as [|op ops IH]; intros tr h V L; cbn [host_run].
  - left. exists h, []. rewrite app_nil_r. auto.
  - destruct (hstep_all tr h op V (L _ _ _ eq_refl)) as [(h1 & evs & E & V1)|(E & C)].
    + rewrite E. cbn [bind]. destruct (IH (tr ++ [(op, evs)]) h1 V1) as [(h2 & tr2 & E2 & O2 & V2)|(E2 & pre & p & post & h2 & tr2 & A & B & C & D & F)].
      * rewrite hops_snoc, <- app_assoc. exact L.
      * left. rewrite E2. cbn [bind]. exists h2, ((op, evs) :: tr2). rewrite <- app_assoc in V2. cbn [hops map fst]. unfold hops in O2. rewrite O2. auto.
      * right. rewrite E2. cbn [bind]. split; auto. exists (op :: pre), p, post, h2, ((op, evs) :: tr2). rewrite <- app_assoc in C, F. subst ops. cbn [host_run]. rewrite E. cbn [bind]. rewrite B. cbn [bind hops map fst].
        unfold hops in D. rewrite D. auto.
    + right. rewrite E. cbn [bind]. split; auto. exists [], op, ops, h, []. rewrite app_nil_r. auto.
Qed.
Lemma host_start : starts o prior sv0 -> hinv [] (Host sv0 []).
Proof.
  intros S. constructor; cbn; auto. unfold ProofHost.core. split; [apply start_inv; auto|]. split; [|split; [|reflexivity]].
  - intros a op e b E. destruct a; discriminate.
  - intros a op b E. destruct a; discriminate.
Qed.
End Host.
