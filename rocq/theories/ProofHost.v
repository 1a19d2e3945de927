(** The whole process: the invariant that ties the connections to the history. *)
From Verif Require Import Base LibBase Bits Env Registry Message Codec Timer Session Multipart Server Host.
From Verif Require Import SpecGeo SpecEntity SpecMsg SpecStream SpecSession SpecMulti SpecTimer SpecServer.
From Verif Require Import ProofStream ProofStream2 ProofMsg ProofMsg2 ProofServer ProofServer2 ProofServer3 ProofServer4 ProofServer6.
From Verif Require Import SpecHost.

(** ** What bytes say *)
Lemma says_frame env key f s m : ~ In 126 f -> msg_decode env key (around f) = Ok m -> says env key (126 :: f ++ 126 :: s) = (m :: fst (says env key s), snd (says env key s)).
Proof. intros H E. unfold says. rewrite runs_frame by auto. rewrite ue_frame, E. destruct (until_error _ _ _ _). reflexivity. Qed.
Lemma says_open env key b : incomplete b -> says env key b = ([], Waiting).
Proof. intros I. unfold says. apply ue_open; auto. Qed.
Lemma rfb_step env key b sc b' : read_from_buffer env key b = (sc, b') ->
  match sc with
  | ScanMsg m => exists f, b = 126 :: f ++ 126 :: b' /\ ~ In 126 f /\ msg_decode env key (around f) = Ok m
  | ScanErr e => forall i, says env key (b ++ i) = ([], GotErr e)
  | ScanNone => b' = b /\ incomplete b
  | ScanPanic => exists f r, b = 126 :: f ++ 126 :: r /\ ~ In 126 f /\ msg_decode env key (around f) = Panic
  end.
Proof.
  intros E. destruct (shapes b) as [|x g r H Hr|f H|f r H].
  - injection E as <- <-. split; auto. left; auto.
  - rewrite rfb_garbage in E by auto. injection E as <- <-. intros i. rewrite <- app_assoc. unfold says.
    destruct (runs_app (x :: g) (r ++ i) H) as (r0 & l & _ & G). rewrite G. reflexivity.
  - rewrite rfb_open in E by auto. injection E as <- <-. split; auto. right; eauto.
  - rewrite rfb_frame in E by auto. destruct (msg_decode env key (around f)) as [m|e|] eqn:D; injection E as <- <-.
    + eauto.
    + intros i. cbn [app]. rewrite <- app_assoc. cbn [app]. unfold says. rewrite runs_frame, ue_frame, D by auto. reflexivity.
    + eauto.
Qed.
Lemma says_panic env key f r i : ~ In 126 f -> msg_decode env key (around f) = Panic -> says env key ((126 :: f ++ 126 :: r) ++ i) = ([], GotPanic).
Proof. intros H D. cbn [app]. rewrite <- app_assoc. cbn [app]. unfold says. rewrite runs_frame, ue_frame, D by auto. reflexivity. Qed.
Lemma says_stable env key r e d : says env key r = ([], GotErr e) -> says env key (r ++ d) = ([], GotErr e).
Proof.
  destruct (shapes r) as [|x g r H Hr|f H|f r H]; intros E.
  - discriminate.
  - rewrite <- app_assoc. unfold says in *. destruct (runs_app (x :: g) r H) as (r0 & l & _ & G). destruct (runs_app (x :: g) (r ++ d) H) as (r1 & l1 & _ & G1).
    rewrite G in E. rewrite G1. exact E.
  - rewrite says_open in E by (right; eauto). discriminate.
  - cbn [app]. rewrite <- app_assoc. cbn [app]. unfold says in *. rewrite runs_frame, ue_frame in * by auto. destruct (msg_decode env key (around f)); auto.
    destruct (until_error _ _ _ (SpecStream.runs r)). discriminate.
Qed.
Lemma manageable_app s d : manageable (s ++ d) -> manageable s.
Proof.
  unfold manageable. induction s as [|b s IH]; cbn [app SpecStream.runs]; intros F.
  - constructor; auto. rewrite zlen_nil. lia.
  - destruct (b =? 126).
    + inversion F; subst. constructor; auto.
    + destruct (runs_nonempty s) as (r & l & E). destruct (runs_nonempty (s ++ d)) as (r2 & l2 & E2). rewrite E, E2 in *. inversion F; subst.
      assert (K : Forall (fun f => zlen f <= 65406) (r :: l)).
      { apply IH. constructor; auto. rewrite zlen_cons in H1. pose proof (zlen_nonneg r2). lia. }
      inversion K; subst. constructor; auto.
      assert (P : exists q, r2 = r ++ q).
      { clear -E E2. revert r l r2 l2 E E2. induction s as [|b s IH]; cbn [app SpecStream.runs]; intros r l r2 l2 E E2.
        - injection E as <- <-. exists r2. reflexivity.
        - destruct (b =? 126); [injection E as <- <-; injection E2 as <- <-; exists []; reflexivity|].
          destruct (runs_nonempty s) as (ra & la & Ea). destruct (runs_nonempty (s ++ d)) as (rb & lb & Eb). rewrite Ea, Eb in *.
          injection E as <- <-. injection E2 as <- <-. destruct (IH _ _ _ _ eq_refl eq_refl) as (q & ->). exists q. reflexivity. }
      destruct P as (q & ->). rewrite zlen_cons, zlen_app in H1. rewrite zlen_cons. pose proof (zlen_nonneg q). lia.
Qed.

(** ** Lists *)
Lemma conn_get_set l id c x : conn_get (conn_set l id c) x = if id =? x then Some c else conn_get l x.
Proof.
  induction l as [|[i y] l IH]; cbn [conn_set conn_get]; [reflexivity|]. destruct (Z.eqb_spec i id) as [->|N]; cbn [conn_get]; [destruct (id =? x); reflexivity|].
  rewrite IH. destruct (Z.eqb_spec i x) as [->|]; auto. destruct (Z.eqb_spec id x); congruence.
Qed.
Definition sends_to (id : Z) (evs : list sv_event) : list message := flat_map (fun ev => match ev with SvSend i m => if i =? id then [m] else [] | _ => [] end) evs.
Lemma sends_to_app id a b : sends_to id (a ++ b) = sends_to id a ++ sends_to id b. Proof. apply flat_map_app. Qed.
Lemma sent_to_eq id T : sent_to id T = sends_to id (effects T).
Proof.
  unfold sent_to, sends_to, sends. induction (effects T) as [|ev l IH]; auto. cbn [flat_map]. destruct ev; auto. cbn [flat_map app fst snd]. rewrite IH. reflexivity.
Qed.
Lemma sent_to_app id a b : sent_to id (a ++ b) = sent_to id a ++ sent_to id b.
Proof. rewrite !sent_to_eq, effects_app, sends_to_app. reflexivity. Qed.
Lemma delivered_app id a b : delivered id (a ++ b) = delivered id a ++ delivered id b. Proof. apply flat_map_app. Qed.
Lemma is_shut_app a b id : is_shut (a ++ b) id = is_shut a id || is_shut b id.
Proof. unfold is_shut. rewrite effects_app, existsb_app. reflexivity. Qed.
Definition grown (id : Z) (evs : list sv_event) (c : conn) : conn := with_send c (cn_queue c ++ sends_to id evs) (cn_flight c) (cn_sending c).
Lemma fold_enqueue evs id : forall l, conn_get (fold_left enqueue evs l) id = option_map (grown id evs) (conn_get l id).
Proof.
  induction evs as [|ev evs IH]; intros l; cbn [fold_left].
  - destruct (conn_get l id) as [[]|]; unfold grown, with_send; cbn; rewrite ?app_nil_r; reflexivity.
  - rewrite IH. unfold enqueue. destruct ev; try reflexivity. destruct (conn_get l id0) as [c|] eqn:E.
    + rewrite conn_get_set. cbn [sends_to flat_map]. destruct (Z.eqb_spec id0 id) as [->|N].
      * rewrite E. cbn [option_map]. unfold grown, with_send. cbn [cn_in cn_buf cn_at cn_queue cn_flight cn_sending cn_pub sends_to flat_map]. rewrite Z.eqb_refl, <- app_assoc. reflexivity.
      * unfold grown. cbn [sends_to flat_map]. destruct (Z.eqb_spec id0 id); [contradiction|]. reflexivity.
    + destruct (conn_get l id) as [c|] eqn:E2; [|reflexivity]. cbn [option_map]. unfold grown. cbn [sends_to flat_map]. destruct (Z.eqb_spec id0 id); [congruence|]. reflexivity.
Qed.
Definition queue_ops (l : list (Z * conn)) (evs : list sv_event) : list sv_op := flat_map (fun ev => match ev with SvSend id _ => queue_op l id | _ => [] end) evs.
Definition full (c : conn) : bool := (length (cn_queue c) =? 24)%nat.
Lemma blocked_app ops l evs id : blocked (ops ++ queue_ops l evs) id =
  match sends_to id evs, conn_get l id with _ :: _, Some c => full c | _, _ => blocked ops id end.
Proof.
  revert ops. induction evs as [|ev evs IH]; intros ops; cbn [queue_ops flat_map sends_to]; [rewrite app_nil_r; reflexivity|].
  fold (queue_ops l evs). fold (sends_to id evs). destruct ev; try apply IH. rewrite app_assoc. rewrite IH. unfold queue_op.
  destruct (Z.eqb_spec id0 id) as [->|N].
  - cbn [app]. destruct (conn_get l id) as [c|] eqn:E.
    + cbn [app]. rewrite blocked_snoc, Z.eqb_refl. unfold full, queue_size. destruct (sends_to id evs); reflexivity.
    + rewrite app_nil_r. destruct (sends_to id evs); reflexivity.
  - cbn [app]. destruct (conn_get l id0) as [c|] eqn:E; [rewrite blocked_snoc; destruct (Z.eqb_spec id0 id); [contradiction|]|rewrite app_nil_r]; reflexivity.
Qed.
Lemma queue_ops_kind l evs o : In o (queue_ops l evs) -> exists id b, o = OQueue id b.
Proof. unfold queue_ops. intros H. apply in_flat_map in H. destruct H as (ev & _ & H). destruct ev; cbn in H; try contradiction. unfold queue_op in H. destruct (conn_get l id); cbn in H; [|contradiction]. destruct H as [<-|[]]. eauto. Qed.

(** ** Steps of the server inside *)
Lemma legal_snoc a o : legal a -> legal_op a o -> legal (a ++ [o]).
Proof.
  intros L H pre o' post E. destruct post as [|x post] using rev_ind.
  - apply app_inj_tail in E. destruct E as (-> & ->). auto.
  - clear IHpost. change (pre ++ o' :: post ++ [x]) with (pre ++ (o' :: post) ++ [x]) in E. rewrite app_assoc in E. apply app_inj_tail in E. destruct E as (-> & _). eapply L. reflexivity.
Qed.
Lemma legal_queues a q : legal a -> (forall o, In o q -> exists id b, o = OQueue id b) -> legal (a ++ q).
Proof.
  revert a. induction q as [|o q IH]; intros a L H; [rewrite app_nil_r; auto|].
  change (a ++ o :: q) with (a ++ [o] ++ q). rewrite app_assoc. apply IH; [|intros; apply H; cbn; auto].
  apply legal_snoc; auto. destruct (H o (or_introl eq_refl)) as (id & b & ->). exact I.
Qed.
Section Host.
Variables (env : Env) (key : option Z) (o : options) (prior : list mop) (sv0 : server).
Hypothesis KEY : key_ok env key.
Notation mg := (opt_auto o).
Notation ka := (keepalive o).

Definition core (T : trace) (sv : server) : Prop := sinv mg ka prior T sv /\ exact mg ka prior T /\ legal (ops_of T) /\ sv_run sv0 (ops_of T) = Ok (sv, T).
Lemma sv_run_app sv a : forall sv1 t1, sv_run sv a = Ok (sv1, t1) -> forall b, sv_run sv (a ++ b) = bind (sv_run sv1 b) (fun x => Ok (fst x, t1 ++ snd x)).
Proof.
  revert sv. induction a as [|x a IH]; intros sv sv1 t1 E b; cbn [sv_run app] in *.
  - injection E as <- <-. destruct (sv_run sv b) as [[]| |]; reflexivity.
  - destruct (sv_step sv x) as [[sv2 e]| |]; cbn [bind] in *; try discriminate. destruct (sv_run sv2 a) as [[sv3 t3]| |] eqn:E2; cbn [bind] in *; try discriminate.
    injection E as <- <-. rewrite (IH _ _ _ E2). destruct (sv_run sv3 b) as [[]| |]; reflexivity.
Qed.
Lemma core_run T sv ops : core T sv -> legal (ops_of T ++ ops) -> exists sv' T', sv_run sv ops = Ok (sv', T') /\ ops_of T' = ops /\ core (T ++ T') sv'.
Proof.
  intros (V & X & L & R) L2. destruct (run_all mg ka prior ops T sv V X L2) as (sv' & T' & R' & O' & V' & X'). exists sv', T'. split; auto. split; auto.
  split; auto. split; auto. unfold ops_of in *. rewrite map_app, O'. split; [exact L2|]. rewrite (sv_run_app _ _ _ _ R), R'. reflexivity.
Qed.
(** Operations that only record the state of channels have no effects. *)
Lemma quiet_queues T q : exact mg ka prior (T ++ q) -> (forall op, In op (ops_of q) -> exists id b, op = OQueue id b) -> q = map (fun op => (op, [])) (ops_of q).
Proof.
  revert T. induction q as [|[op es] q IH]; intros T X H; auto. cbn [ops_of map fst] in *.
  assert (E : es = []). { destruct (H op (or_introl eq_refl)) as (id & b & ->). exact (X T _ _ q eq_refl). } subst es. f_equal.
  apply (IH (T ++ [(op, [])])); [rewrite <- app_assoc; exact X|]. intros; apply H; cbn; auto.
Qed.
Lemma perform_ok T h op : core T (ho_sv h) -> legal_op (ops_of T) op -> exists sv' evs q,
  let l := fold_left enqueue evs (ho_conns h) in
  perform h op = Ok (Host sv' l, HSv op evs :: sv_events q) /\ core (T ++ (op, evs) :: q) sv' /\ effect mg ka prior T op evs /\
  q = map (fun op => (op, [])) (queue_ops l evs).
Proof.
  intros C L. destruct C as (V & X & LG & R).
  destruct (step_all mg ka prior T (ho_sv h) op V L) as (sv1 & evs & S & V1 & F).
  assert (C1 : core (T ++ [(op, evs)]) sv1).
  { split; auto. split; [apply exact_snoc; auto|]. rewrite ops_snoc. cbn [fst]. split; [apply legal_snoc; auto|]. rewrite (sv_run_app _ _ _ _ R). cbn [sv_run]. rewrite S. reflexivity. }
  set (l := fold_left enqueue evs (ho_conns h)).
  destruct (core_run _ _ (queue_ops l evs) C1) as (sv2 & q & R2 & O2 & C2).
  { apply legal_queues; [apply C1|]. intros; eapply queue_ops_kind; eauto. }
  exists sv2, evs, q. cbv zeta. fold l. split; [|split; [|split; auto]].
  - unfold perform. rewrite S. cbn [bind]. fold l. fold (queue_ops l evs). rewrite R2. reflexivity.
  - rewrite <- app_assoc in C2. exact C2.
  - rewrite <- O2. apply (quiet_queues (T ++ [(op, evs)])); [apply C2|]. rewrite O2. intros; eapply queue_ops_kind; eauto.
Qed.
End Host.
