(** The whole process goroutine by goroutine: how much there is left to do. *)
From Verif Require Import Base LibBase Env EntTerm EntPlat Registry Message Codec Timer Session Multipart Server Host Overlap Fine World.
From Verif Require Import SpecGeo SpecEntity SpecMsg SpecStream SpecSession SpecMulti SpecTimer SpecServer SpecHost SpecOverlap SpecFine SpecWorld.
From Verif Require Import ProofStream ProofStream2 ProofMsg ProofMsg2 ProofServer4 ProofServer6 ProofHost ProofHost2 ProofHost3 ProofFine ProofFine2 ProofFine5 ProofFine6 ProofFine13 ProofWorld ProofWorld2 ProofWorld3 ProofWorld4 ProofWorld5 ProofWorld6 ProofWorld7.

(** ** Sums over sessions *)
Lemma sum_le {A} (f g : A -> nat) l : (forall x, In x l -> (f x <= g x)%nat) -> (sum f l <= sum g l)%nat.
Proof. induction l as [|x l IH]; cbn; intros H; [lia|]. pose proof (H x (or_introl eq_refl)). assert (sum f l <= sum g l)%nat by (apply IH; intros; apply H; auto). lia. Qed.
Lemma sum_same {A} (f g : A -> nat) l : (forall x, In x l -> f x = g x) -> sum f l = sum g l.
Proof. induction l as [|x l IH]; cbn; intros H; [lia|]. rewrite (H x), IH; auto. Qed.
Lemma sum_plus {A} (f g : A -> nat) l : sum (fun x => (f x + g x)%nat) l = (sum f l + sum g l)%nat.
Proof. induction l as [|x l IH]; cbn; [reflexivity|]. rewrite IH. lia. Qed.
Lemma sum_times {A} (f : A -> nat) n l : sum (fun x => (n * f x)%nat) l = (n * sum f l)%nat.
Proof. induction l as [|x l IH]; cbn; [lia|]. rewrite IH. lia. Qed.
Lemma sum_one (f g : Z -> nat) id l : NoDup l -> In id l -> (forall x, x <> id -> f x = g x) -> (sum f l + g id = sum g l + f id)%nat.
Proof.
  induction l as [|x l IH]; [intros _ []|]. intros ND I H. inversion ND; subst. cbn. destruct (Z.eq_dec x id) as [->|N].
  - rewrite (sum_same f g l); [lia|]. intros y Iy. apply H. intros ->. contradiction.
  - destruct I as [->|I]; [congruence|]. rewrite (H x N). specialize (IH ltac:(assumption) I H). lia.
Qed.
Definition hands (e : list fevent) : nat := sum (fun ev => match ev with XWire _ _ (Some _) => 1%nat | _ => 0%nat end) e.
Lemma hands_few e : (hands e <= length e)%nat.
Proof. induction e as [|x e IH]; cbn; [lia|]. fold (hands e). destruct x; try lia. destruct sent; lia. Qed.
Lemma handed_few l e : NoDup l -> (sum (fun id => length (handed id e)) l <= hands e)%nat.
Proof.
  intros ND. induction e as [|x e IH].
  - rewrite (sum_same _ (fun _ => 0%nat)) by reflexivity. clear. induction l; cbn; auto.
  - change (x :: e) with ([x] ++ e). rewrite (sum_same _ (fun id => (length (handed id [x]) + length (handed id e))%nat)) by (intros; rewrite handed_app, app_length; reflexivity). rewrite sum_plus.
    change (hands ([x] ++ e)) with ((match x with XWire _ _ (Some _) => 1 | _ => 0 end) + hands e)%nat.
    assert (sum (fun id => length (handed id [x])) l <= match x with XWire _ _ (Some _) => 1 | _ => 0 end)%nat; [|lia]. clear IH.
    assert (Z0 : forall m, (forall id, In id m -> length (handed id [x]) = 0%nat) -> sum (fun id => length (handed id [x])) m = 0%nat). { induction m as [|y m IHm]; intros Q; [reflexivity|]. cbn [sum]. rewrite (Q y), IHm; auto; [intros; apply Q; right; auto|left; auto]. }
    destruct x; try (rewrite Z0; [lia|reflexivity]). destruct sent as [m|]; [|rewrite Z0; [lia|reflexivity]].
    induction l as [|y l IHl]; [cbn; lia|]. inversion ND; subst. cbn [sum]. cbn [handed flat_map]. destruct (Z.eqb_spec id y) as [->|N].
    + rewrite Z0; [cbn; lia|]. intros z Iz. cbn [handed flat_map]. destruct (Z.eqb_spec y z) as [->|]; [contradiction|reflexivity].
    + cbn. apply IHl. assumption.
Qed.

(** ** What is left to do *)
Definition w_task (k : task) : nat := match k with TIdle => 0 | TMkdir _ => 8 | TTrunc _ => 7 | TFill _ => 6 | TCheck _ => 5 | TOpen _ => 4 | TCreate _ _ => 3 | TCopy _ _ _ => 2 | TRead _ => 1 end.
Definition w_names (k : task) : nat := match k with TCreate _ ns | TCopy _ ns _ => length ns | _ => 0 end.
Definition w_phase (c : conn) : nat := match cn_at c with Left => 0 | AtStart => 3 * length (cn_in c) + 2 * length (cn_buf c) + 2 | InRead => 3 * length (cn_in c) + 2 * length (cn_buf c) + 1 end.
Definition w_send (c : conn) : nat := 4 * length (cn_queue c) + 3 * length (in_flight c) + (if cn_sending c then 1 else 0).
Definition w_conn (c : conn) : nat := 200 * w_phase c + w_send c.
Definition w_at (l : list (Z * conn)) (u : Z -> thread) (id : Z) : nat := match conn_get l id with Some c => w_conn c | None => 0 end + w_task (th_at (u id)).
Definition ids_of (l : list (Z * conn)) : list Z := nodup Z.eq_dec (map fst l).
Definition load1 (w : world) : nat := 6 * work (wo_fine w) + sum (w_at (wo_conns w) (wo_up w)) (ids_of (wo_conns w)).
Definition load2 (w : world) : nat := sum (fun id => w_names (th_at (wo_up w id))) (ids_of (wo_conns w)).
Definition less (w w' : world) (e : list wevent) : Prop := (load1 w' + length e <= load1 w)%nat /\ (load1 w' < load1 w \/ load2 w' < load2 w)%nat.

Lemma ids_nodup l : NoDup (ids_of l). Proof. apply NoDup_nodup. Qed.
Lemma conn_in l id c : conn_get l id = Some c -> In id (ids_of l).
Proof. intros G. apply nodup_In. induction l as [|[i x] l IH]; cbn in *; [discriminate|]. destruct (Z.eqb_spec i id); auto. Qed.
Lemma conn_keys l id c c' : conn_get l id = Some c -> map fst (conn_set l id c') = map fst l.
Proof. induction l as [|[i x] l IH]; cbn; [discriminate|]. destruct (Z.eqb_spec i id) as [->|]; cbn; intros; [reflexivity|]. rewrite IH; auto. Qed.
Lemma conn_set_same l id c : conn_get l id = Some c -> conn_set l id c = l.
Proof. induction l as [|[i x] l IH]; cbn; [discriminate|]. destruct (Z.eqb_spec i id) as [->|]; intros H; [injection H as ->; reflexivity|]. rewrite IH; auto. Qed.
Lemma put_keys e : forall l, ids_of (fold_left put_in e l) = ids_of l.
Proof.
  induction e as [|x e IH]; intros l; [reflexivity|]. cbn [fold_left]. rewrite IH. unfold ids_of. f_equal. destruct x; try reflexivity. destruct sent; [|reflexivity]. cbn [put_in].
  destruct (conn_get l id) eqn:G; [|reflexivity]. eapply conn_keys; eauto.
Qed.
(** Assignments *)
Lemma conn_load w id c c' : conn_get (wo_conns w) id = Some c -> (load1 (set_wconn w id c') + w_conn c = load1 w + w_conn c')%nat /\ load2 (set_wconn w id c') = load2 w /\ ids_of (wo_conns (set_wconn w id c')) = ids_of (wo_conns w).
Proof.
  intros G. assert (I : ids_of (wo_conns (set_wconn w id c')) = ids_of (wo_conns w)) by (unfold ids_of; cbn [set_wconn wo_conns]; erewrite conn_keys by eauto; reflexivity).
  unfold load1, load2. rewrite I. cbn [set_wconn wo_fine wo_up wo_conns]. split; [|split; reflexivity].
  pose proof (sum_one (w_at (conn_set (wo_conns w) id c') (wo_up w)) (w_at (wo_conns w) (wo_up w)) id (ids_of (wo_conns w)) (ids_nodup _) (conn_in _ _ _ G)) as X.
  assert (H : forall x, x <> id -> w_at (conn_set (wo_conns w) id c') (wo_up w) x = w_at (wo_conns w) (wo_up w) x). { intros x N. unfold w_at. rewrite conn_get_set. destruct (Z.eqb_spec id x); [congruence|reflexivity]. }
  specialize (X H). unfold w_at in X at 2 4. rewrite conn_get_set, Z.eqb_refl, G in X. lia.
Qed.
Lemma up_load w id f t : In id (ids_of (wo_conns w)) -> (load1 (set_up w id f t) + w_task (th_at (wo_up w id)) = load1 w + w_task (th_at t))%nat /\
  (load2 (set_up w id f t) + w_names (th_at (wo_up w id)) = load2 w + w_names (th_at t))%nat.
Proof.
  intros I. unfold load1, load2. cbn [set_up wo_fine wo_up wo_conns]. split.
  - pose proof (sum_one (w_at (wo_conns w) (fun i => if i =? id then t else wo_up w i)) (w_at (wo_conns w) (wo_up w)) id _ (ids_nodup _) I) as X.
    assert (H : forall x, x <> id -> w_at (wo_conns w) (fun i => if i =? id then t else wo_up w i) x = w_at (wo_conns w) (wo_up w) x). { intros x N. unfold w_at. destruct (Z.eqb_spec x id); [congruence|reflexivity]. }
    specialize (X H). unfold w_at in X at 2 4. rewrite Z.eqb_refl in X. lia.
  - pose proof (sum_one (fun i => w_names (th_at (if i =? id then t else wo_up w i))) (fun i => w_names (th_at (wo_up w i))) id _ (ids_nodup _) I) as X.
    cbv beta in X. rewrite Z.eqb_refl in X. apply X. intros x N. destruct (Z.eqb_spec x id); [congruence|reflexivity].
Qed.
(** A step of the server *)
Lemma queue_work l e : forall s s2 e2, frun s (queue_ops l e) = Ok (s2, e2) -> work s2 = work s.
Proof.
  assert (G : forall ops, (forall op, In op ops -> exists id b, op = FQueue id b) -> forall s s2 e2, frun s ops = Ok (s2, e2) -> work s2 = work s).
  { induction ops as [|op ops IH]; intros H s s2 e2 R; cbn [frun] in R; [injection R as <- _; reflexivity|]. destruct (H op (or_introl eq_refl)) as (id & b & ->).
    assert (H' : forall op, In op ops -> exists id b, op = FQueue id b) by (intros; apply H; right; auto). cbn [fstep] in R. destruct (fobj_get (fi_objs s) id) as [o|] eqn:Go; cbn [bind] in R.
    - destruct (frun (set_fobj s id _) ops) as [[s3 e3]| |] eqn:R2; try discriminate. injection R as <- _. rewrite (IH H' _ _ _ R2). unfold work. cbn [set_fobj fi_objs fi_casts fi_tick].
      pose proof (sum_set _ _ _ (Fobj (fo_cfg o) (fo_pc o) (fo_closed o) b (fo_cb o) (fo_close o)) Go) as X. unfold w_obj at 2 4 in X. cbn [fo_pc fo_cfg fo_close] in X. lia.
    - destruct (frun s ops) as [[s3 e3]| |] eqn:R2; try discriminate. injection R as <- _. apply (IH H' _ _ _ R2). }
  apply G. intros op I. unfold queue_ops in I. apply in_flat_map in I as (x & _ & I). destruct x; try contradiction. destruct sent; [|contradiction]. unfold queue_now in I. destruct (conn_get l id); [|contradiction]. destruct I as [<-|[]]. eauto.
Qed.
Lemma act_load w op w' ev : act w op = Ok (w', ev) -> exists s1 e, fstep (wo_fine w) op = Ok (s1, e) /\ ev = map WFine e /\
  (load1 w' + 6 * work (wo_fine w) <= load1 w + 6 * work s1 + 4 * hands e)%nat /\ load2 w' = load2 w /\ ids_of (wo_conns w') = ids_of (wo_conns w) /\ wo_up w' = wo_up w.
Proof.
  unfold act. destruct (fstep (wo_fine w) op) as [[s1 e]| |] eqn:E; try discriminate. cbn [bind]. fold (queue_ops (fold_left put_in e (wo_conns w)) e).
  destruct (queue_run (fold_left put_in e (wo_conns w)) e s1) as (s2 & Q & GQ). rewrite Q. cbn [bind]. intros X. injection X as <- <-. exists s1, e. rewrite app_nil_r. split; [reflexivity|]. split; [reflexivity|].
  unfold load1, load2. cbn [wo_fine wo_conns wo_up]. rewrite !put_keys, (queue_work _ _ _ _ _ Q). split; [|auto].
  assert (sum (w_at (fold_left put_in e (wo_conns w)) (wo_up w)) (ids_of (wo_conns w)) <= sum (w_at (wo_conns w) (wo_up w)) (ids_of (wo_conns w)) + 4 * hands e)%nat; [|lia].
  pose proof (handed_few (ids_of (wo_conns w)) e (ids_nodup _)) as HF.
  eapply Nat.le_trans; [apply (sum_le _ (fun id => (w_at (wo_conns w) (wo_up w) id + 4 * length (handed id e))%nat))|rewrite sum_plus, sum_times; lia].
  intros id _. unfold w_at. rewrite put_get. destruct (conn_get (wo_conns w) id) as [c|]; cbn [option_map]; [|lia]. unfold w_conn, w_phase, w_send, in_flight, fuller. cbn [with_send cn_at cn_in cn_buf cn_queue cn_flight cn_sending]. rewrite app_length. lia.
Qed.
Lemma close_work s id o s1 e : fobj_get (fi_objs s) id = Some o -> fclose s id o = (s1, e) -> work s1 = work s /\ (length e <= 1)%nat /\ hands e = 0%nat.
Proof.
  intros Go E. unfold fclose in E. destruct (fo_closed o); injection E as <- <-; [split; [reflexivity|cbn; lia]|]. split; [|cbn; lia]. unfold work. cbn [set_fobj fi_objs fi_casts fi_tick].
  pose proof (sum_set _ _ _ (fshut o) Go) as X. unfold w_obj at 2 4 in X. cbn [fshut fo_pc fo_cfg fo_close] in X. lia.
Qed.
Lemma shut_work s id s1 e : fstep s (FShut id) = Ok (s1, e) -> work s1 = work s /\ (length e <= 1)%nat /\ hands e = 0%nat.
Proof. cbn [fstep]. destruct (fobj_get (fi_objs s) id) as [o|] eqn:Go; intros E; [injection E as E; eapply close_work; eauto|]. injection E as <- <-. split; [reflexivity|cbn; lia]. Qed.
Lemma fail_work s id s1 e : fstep s (FFail id) = Ok (s1, e) -> work s1 = work s /\ (length e <= 2)%nat.
Proof.
  cbn [fstep]. destruct (fobj_get (fi_objs s) id) as [o|] eqn:Go; [|intros E; injection E as <- <-; split; [reflexivity|cbn; lia]].
  destruct (fo_pc o) eqn:P; try (intros E; injection E as <- <-; split; [reflexivity|cbn; lia]).
  destruct (fclose _ _ _) as [s2 e2] eqn:C. intros E. injection E as <- <-. apply close_work in C; [|cbn [set_fobj fi_objs]; rewrite fobj_get_set, Z.eqb_refl; reflexivity]. destruct C as (C1 & C2 & _).
  split; [|cbn; lia]. rewrite C1. unfold work. cbn [set_fobj fi_objs fi_casts fi_tick]. pose proof (sum_set _ _ _ (at_pc o GEnd) Go) as X. unfold w_obj at 2 4 in X. rewrite P in X. cbn [at_pc fo_pc fo_cfg fo_close w_pc] in X. lia.
Qed.
Lemma recv_work s id m s1 e : fstep s (FRecv id m) = Ok (s1, e) -> (work s1 <= work s + 18)%nat /\ (length e <= 1)%nat.
Proof.
  cbn [fstep]. destruct (fobj_get (fi_objs s) id) as [o|] eqn:Go; [|intros E; injection E as <- <-; split; cbn; lia].
  destruct (fo_pc o) eqn:P; try (intros E; injection E as <- <-; split; cbn; lia).
  destruct (on_message (fi_auto s) m) as [p| |] eqn:OM; try discriminate. cbn [bind]. intros E. injection E as <- <-. split; [|cbn; lia].
  unfold work. cbn [set_fobj fi_objs fi_casts fi_tick]. pose proof (sum_set _ _ _ (at_pc o p) Go) as X. unfold w_obj at 2 4 in X. rewrite P in X. cbn [at_pc fo_pc fo_cfg fo_close] in X. change (w_pc GRecv) with 0%nat in X.
  assert (w_pc p <= 18)%nat; [|lia]. unfold on_message in OM. destruct (m_body m) as [|n|b]; try (injection OM as <-; cbn; lia). destruct (_ || _); [injection OM as <-; cbn; lia|].
  destruct b; try (injection OM as <-; cbn; lia). destruct (h_packet _) as [[]|]; [|discriminate]. destruct (a0801_packet _); [|discriminate]. injection OM as <-. cbn. lia.
Qed.
(** A step the server takes by itself *)
Lemma act_self w op w' ev : by_itself op = true -> act w op = Ok (w', ev) -> (w' = w /\ ev = []) \/ ((load1 w' + 2 * length ev <= load1 w)%nat /\ load2 w' = load2 w /\ ev <> []).
Proof.
  intros B A. pose proof A as A0. apply act_load in A as (s1 & e & E & -> & L1 & L2 & _). destruct (itself_inner _ _ _ _ B E) as [(-> & ->)|(D & x & r & -> & I)].
  - left. unfold act in A0. rewrite E in A0. cbn [bind fold_left flat_map frun app map] in A0. injection A0 as <-. destruct w; auto.
  - right. pose proof (does_less _ _ _ _ D I) as L. pose proof (hands_few (x :: r)). rewrite map_length. split; [lia|]. split; [exact L2|discriminate].
Qed.
Lemma thread_less f t f' t' : th_at t <> TIdle -> thread_step f t = (f', t') ->
  (w_task (th_at t') < w_task (th_at t))%nat \/ (w_task (th_at t') = w_task (th_at t) /\ (w_names (th_at t') < w_names (th_at t))%nat).
Proof.
  intros N E. unfold thread_step in E. destruct (th_at t) as [|p|p|p|m|m|m ns|m ns off|m]; try contradiction.
  - destruct (negb _); injection E as _ <-; cbn; lia.
  - injection E as _ <-; cbn; lia.
  - destruct (negb _); injection E as _ <-; cbn; lia.
  - destruct (fold_left _ _ _); injection E as _ <-; cbn; lia.
  - injection E as _ <-; cbn; lia.
  - injection E as _ <-; cbn; lia.
  - destruct ns; injection E as _ <-; cbn; lia.
  - injection E as _ <-; cbn; lia.
Qed.

Section World.
Variables (env : Env) (key : option Z) (merging : bool) (ka : Z).

Lemma got_less w id c c0 r w' ev : conn_get (wo_conns w) id = Some c0 -> (w_phase c <= w_phase c0)%nat -> w_send c = w_send c0 ->
  (match cn_at c with AtStart => True | InRead => w_phase c < w_phase c0 | Left => False end)%nat -> r = read_from_buffer env key (cn_buf c) -> got w id c r = Ok (w', ev) -> less w w' ev.
Proof.
  intros G LE SE PH -> E. unfold got in E. destruct (read_from_buffer env key (cn_buf c)) as [sc b] eqn:R. pose proof (rfb_step env key _ _ _ R) as RS. destruct sc as [m|er| |]; try discriminate.
  - destruct (act _ (FRecv id m)) as [[w1 e1]| |] eqn:A; try discriminate. cbn [bind] in E. injection E as <- <-. destruct RS as (f & RS & _).
    destruct (conn_load w id c0 (with_recv c (cn_in c) b AtStart) G) as (C1 & C2 & C3). apply act_load in A as (s1 & e & A & -> & L1 & L2 & L3 & L4). apply recv_work in A as (W1 & W2). pose proof (hands_few e). cbn [set_wconn wo_fine] in *.
    assert (WC : (w_conn (with_recv c (cn_in c) b AtStart) + 200 <= w_conn c0)%nat).
    { unfold w_conn. change (w_send (with_recv c (cn_in c) b AtStart)) with (w_send c). rewrite SE. unfold w_phase at 1. cbn [with_recv cn_at cn_in cn_buf].
      assert (w_phase c >= 3 * length (cn_in c) + 2 * length (cn_buf c) + 1)%nat by (unfold w_phase; destruct (cn_at c); try lia; contradiction). rewrite RS in *. cbn [length] in *. rewrite app_length in *. cbn [length] in *. lia. }
    assert (BU : (load1 (begin_upload w1 id) <= load1 w1 + 8)%nat).
    { unfold begin_upload. destruct (pc_of (wo_fine w1) id) as [[]|]; try lia. destruct (packet_of m0); [|lia].
      assert (I : In id (ids_of (wo_conns w1))) by (rewrite L3, C3; eapply conn_in; eauto). destruct (up_load w1 id (wo_fs w1) (Thread [] (TMkdir p) (th_out (wo_up w1 id))) I) as (U & _). cbn [th_at w_task] in U. lia. }
    unfold less. rewrite map_length. lia.
  - destruct (conn_load w id c0 (with_recv c (cn_in c) b Left) G) as (C1 & C2 & C3). apply act_load in E as (s1 & e & A & -> & L1 & L2 & L3 & L4). apply fail_work in A as (W1 & W2). pose proof (hands_few e). cbn [set_wconn wo_fine] in *.
    assert (WC : (w_conn (with_recv c (cn_in c) b Left) + 200 <= w_conn c0)%nat).
    { unfold w_conn. change (w_send (with_recv c (cn_in c) b Left)) with (w_send c). rewrite SE. unfold w_phase at 1. cbn [with_recv cn_at].
      assert (w_phase c >= 1)%nat by (unfold w_phase; destruct (cn_at c); try lia; contradiction). lia. }
    unfold less. rewrite map_length. lia.
  - injection E as <- <-. destruct (conn_load w id c0 (with_recv c (cn_in c) b InRead) G) as (C1 & C2 & C3). destruct RS as (-> & _).
    assert (WC : (w_conn (with_recv c (cn_in c) (cn_buf c) InRead) < w_conn c0)%nat).
    { unfold w_conn. change (w_send (with_recv c (cn_in c) (cn_buf c) InRead)) with (w_send c). rewrite SE. unfold w_phase at 1. cbn [with_recv cn_at cn_in cn_buf]. unfold w_phase at 1 in LE. unfold w_phase at 1 in PH. destruct (cn_at c); try lia; contradiction. }
    unfold less. cbn [length]. lia.
Qed.
Lemma fail_less w id c0 c w' ev : conn_get (wo_conns w) id = Some c0 -> (w_phase c + 1 <= w_phase c0)%nat -> w_send c = w_send c0 -> act (set_wconn w id c) (FFail id) = Ok (w', ev) -> less w w' ev.
Proof.
  intros G LE SE E. destruct (conn_load w id c0 c G) as (C1 & C2 & C3). apply act_load in E as (s1 & e & A & -> & L1 & L2 & L3 & L4). apply fail_work in A as (W1 & W2). pose proof (hands_few e). cbn [set_wconn wo_fine] in *.
  unfold w_conn in C1. unfold less. rewrite map_length. lia.
Qed.
Definition idle_turn (w : world) (id : Z) : Prop := forall c, pc_of (wo_fine w) id = Some GRecv -> conn_get (wo_conns w) id = Some c -> cn_at c = Left \/ (cn_at c = InRead /\ cn_in c = [] /\ is_closed (wo_fine w) id = false).
Definition idle_file (w : world) (id : Z) : Prop := forall m, pc_of (wo_fine w) id <> Some (GStore m) /\ pc_of (wo_fine w) id <> Some (GMerge m).
Definition idle_take (w : world) (id : Z) : Prop := forall c, conn_get (wo_conns w) id = Some c -> cn_sending c = true -> cn_flight c = None -> cn_queue c = [].
Definition idle_write (w : world) (id : Z) : Prop := forall c, conn_get (wo_conns w) id = Some c -> cn_flight c = None.
Lemma turn_less w id k w' ev : receive env key w id (Avail k) = Ok (w', ev) -> (w' = w /\ ev = [] /\ idle_turn w id) \/ less w w' ev.
Proof.
  unfold receive. destruct (pc_of (wo_fine w) id) as [[]|] eqn:PC; try (intros E; injection E as <- <-; left; split; [reflexivity|split; [reflexivity|]]; intros c0 X; rewrite PC in X; discriminate X).
  destruct (conn_get (wo_conns w) id) as [c|] eqn:G; [|intros E; injection E as <- <-; left; split; [reflexivity|split; [reflexivity|]]; intros c0 _ X; rewrite G in X; discriminate X].
  destruct (cn_at c) eqn:P; [| |intros E; injection E as <- <-; left; split; [reflexivity|split; [reflexivity|]]; intros c0 _ X; rewrite G in X; injection X as <-; left; exact P].
  - intros E. right. eapply got_less; eauto. rewrite P. exact Logic.I.
  - cbv zeta. set (n := Nat.max 1 (Nat.min k 128)). assert (N : (1 <= n)%nat) by lia. destruct (firstn n (cn_in c)) as [|x d] eqn:F.
    + destruct (is_closed (wo_fine w) id) eqn:CL; intros E; [|injection E as <- <-; left; split; [reflexivity|split; [reflexivity|]]; intros c0 _ X; rewrite G in X; injection X as <-; right; split; [exact P|]; split; [|exact CL]; destruct (cn_in c); [reflexivity|]; destruct n; [lia|discriminate F]]. right. refine (fail_less w id c _ w' ev G _ _ E); [|reflexivity]. unfold w_phase. rewrite P. cbn [with_recv cn_at]. lia.
    + pose proof (firstn_skipn n (cn_in c)) as SP. rewrite F in SP. destruct (65535 <? _); intros E; right.
      * refine (fail_less w id c _ w' ev G _ _ E); [|reflexivity]. unfold w_phase. rewrite P. cbn [with_recv cn_at]. lia.
      * assert (L : (w_phase (with_recv c (skipn n (cn_in c)) (cn_buf c ++ x :: d) InRead) < w_phase c)%nat).
        { unfold w_phase. rewrite P. cbn [with_recv cn_at cn_in cn_buf]. pose proof (f_equal (@length Z) SP) as SL. rewrite app_length in SL. cbn [length] in SL. rewrite app_length. cbn [length]. lia. }
        refine (got_less w id _ c _ w' ev G _ _ _ eq_refl E); [lia|reflexivity|]. cbn [with_recv cn_at]. exact L.
Qed.
Lemma file_less evs w id w' ev : winv env key merging ka evs w -> access w id = Ok (w', ev) -> (w' = w /\ ev = [] /\ idle_file w id) \/ less w w' ev.
Proof.
  intros V. unfold access. destruct (pc_of (wo_fine w) id) as [p|] eqn:PC; [|intros E; injection E as <- <-; left; split; [reflexivity|split; [reflexivity|]]; intros m0; rewrite PC; split; discriminate].
  assert (I : In id (ids_of (wo_conns w))).
  { pose proof (wi_conn _ _ _ _ _ _ V id) as C. unfold pc_of in PC. destruct (fobj_get (fi_objs (wo_fine w)) id); [|discriminate]. destruct (conn_get (wo_conns w) id) eqn:G; [eapply conn_in; eauto|contradiction]. }
  assert (ACT : forall op, by_itself op = true -> (forall s1 e, fstep (wo_fine w) op = Ok (s1, e) -> e <> []) -> act w op = Ok (w', ev) -> less w w' ev).
  { intros op B NE A. pose proof A as A0. apply act_load in A0 as (s1 & e & A0 & -> & _). apply NE in A0. apply act_self in A; auto. destruct A as [(_ & A)|(A1 & A2 & A3)]; [destruct e; [contradiction|discriminate]|]. unfold less. destruct e; [contradiction|]. cbn [length map] in *. lia. }
  assert (STEP : forall f t, th_at (wo_up w id) <> TIdle -> thread_step (wo_fs w) (wo_up w id) = (f, t) -> less w (set_up w id f t) [] /\ forall op, by_itself op = true -> act (set_up w id f t) op = Ok (w', ev) -> less w w' ev).
  { intros f t N T. destruct (up_load w id f t I) as (U1 & U2). apply thread_less in T; auto. split; [unfold less; cbn [length]; lia|]. intros op B A. apply act_self in A; auto.
    unfold less. destruct A as [(-> & ->)|(A1 & A2 & A3)]; [cbn [length]; lia|lia]. }
  destruct p; try (intros E; injection E as <- <-; left; split; [reflexivity|split; [reflexivity|]]; intros m0; rewrite PC; split; discriminate); intros E0; right; revert E0.
  - destruct (th_at (wo_up w id)) eqn:TA; [apply ACT; [reflexivity|]; intros s1 e; cbn [fstep]; unfold pc_of in PC; destruct (fobj_get (fi_objs (wo_fine w)) id); [|discriminate]; injection PC as PC; rewrite PC; intros X; injection X as _ <-; discriminate| | | | | | | |]; destruct (thread_step (wo_fs w) (wo_up w id)) as [f t] eqn:TS; (destruct (STEP f t) as (S1 & S2); [congruence|reflexivity|]);
      destruct (th_at t); intros E; try (eapply S2; [|exact E]; reflexivity); injection E as <- <-; exact S1.
  - destruct (th_at (wo_up w id)) eqn:TA; [apply ACT; [reflexivity|]; intros s1 e; cbn [fstep]; unfold pc_of in PC; destruct (fobj_get (fi_objs (wo_fine w)) id); [|discriminate]; injection PC as PC; rewrite PC; intros X; injection X as _ <-; discriminate| | | | | | | |]; destruct (thread_step (wo_fs w) (wo_up w id)) as [f t] eqn:TS; (destruct (STEP f t) as (S1 & S2); [congruence|reflexivity|]);
      destruct (th_at t); intros E; try (eapply S2; [|exact E]; reflexivity); injection E as <- <-; exact S1.
Qed.
Lemma take_less w id w' ev : wtake w id = Ok (w', ev) -> (w' = w /\ ev = [] /\ idle_take w id) \/ less w w' ev.
Proof.
  unfold wtake. destruct (conn_get (wo_conns w) id) as [c|] eqn:G; [|intros E; injection E as <- <-; left; split; [reflexivity|split; [reflexivity|]]; intros c0 X; rewrite G in X; discriminate X].
  destruct (cn_sending c) eqn:SE; [|intros E; injection E as <- <-; left; split; [reflexivity|split; [reflexivity|]]; intros c0 X; rewrite G in X; injection X as <-; congruence].
  destruct (cn_flight c) eqn:FL; [intros E; injection E as <- <-; left; split; [reflexivity|split; [reflexivity|]]; intros c0 X; rewrite G in X; injection X as <-; congruence|].
  destruct (cn_queue c) as [|m q] eqn:Q; [intros E; injection E as <- <-; left; split; [reflexivity|split; [reflexivity|]]; intros c0 X; rewrite G in X; injection X as <-; auto|]. cbv zeta.
  set (w1 := set_wconn w id (with_send c q (Some m) true)). destruct (frun (wo_fine w) (queue_now (wo_conns w1) id)) as [[s e]| |] eqn:R; try discriminate. cbn [bind]. intros E. injection E as <- <-. right.
  assert (X : e = [] /\ work s = work (wo_fine w)).
  { destruct (queue_run (wo_conns w1) [XWire id 0 (Some m)] (wo_fine w)) as (s2 & Q2 & _). unfold queue_ops in Q2. cbn [flat_map] in Q2. rewrite app_nil_r, R in Q2. injection Q2 as <- ->. split; [reflexivity|].
    apply (queue_work (wo_conns w1) [XWire id 0 (Some m)] _ _ []). unfold queue_ops. cbn [flat_map]. rewrite app_nil_r. exact R. }
  destruct X as (-> & WS). destruct (conn_load w id c (with_send c q (Some m) true) G) as (C1 & C2 & C3). fold w1 in C1, C2, C3. cbn [map length].
  assert (WC : (w_conn (with_send c q (Some m) true) < w_conn c)%nat). { unfold w_conn, w_phase, w_send, in_flight. cbn [with_send cn_at cn_in cn_buf cn_queue cn_flight cn_sending]. rewrite SE, FL, Q. cbn [length]. lia. }
  lazymatch goal with |- less _ ?x _ => assert (L : load1 x = load1 w1 /\ load2 x = load2 w1) end.
  { split; [|reflexivity]. unfold load1. cbn [wo_fine wo_conns wo_up]. rewrite WS. reflexivity. }
  destruct L as (L & L'). unfold less. rewrite L, L'. cbn [length]. lia.
Qed.
Lemma write_less w id rnd wr w' ev : wwrite env w id rnd wr = Ok (w', ev) -> (w' = w /\ ev = [] /\ idle_write w id) \/ less w w' ev.
Proof.
  unfold wwrite. destruct (conn_get (wo_conns w) id) as [c|] eqn:G; [|intros E; injection E as <- <-; left; split; [reflexivity|split; [reflexivity|]]; intros c0 X; rewrite G in X; discriminate X].
  destruct (cn_flight c) as [m|] eqn:FL; [|intros E; injection E as <- <-; left; split; [reflexivity|split; [reflexivity|]]; intros c0 X; rewrite G in X; injection X as <-; exact FL].
  assert (WC : forall b, (b = true -> cn_sending c = true) -> (w_conn (with_send c (cn_queue c) None b) + 3 <= w_conn c)%nat).
  { intros b B. unfold w_conn, w_phase, w_send, in_flight. cbn [with_send cn_at cn_in cn_buf cn_queue cn_flight cn_sending]. rewrite FL. cbn [length]. destruct b; [rewrite B by reflexivity|]; destruct (cn_sending c); lia. }
  destruct (codec_send _ _ _ _ _) as [d|er|]; [| |discriminate].
  - intros E. injection E as <- <-. right. destruct (conn_load w id c (with_send c (cn_queue c) None (cn_sending c)) G) as (C1 & C2 & C3). specialize (WC (cn_sending c) (fun x => x)). unfold less. cbn [length]. lia.
  - destruct (act _ (FShut id)) as [[w1 e1]| |] eqn:A; try discriminate. cbn [bind]. intros E. injection E as <- <-. right. destruct (conn_load w id c (with_send c (cn_queue c) None false) G) as (C1 & C2 & C3).
    specialize (WC false ltac:(discriminate)). apply act_load in A as (s1 & e & A & -> & L1 & L2 & L3 & L4). apply shut_work in A as (W1 & W2 & W3). cbn [set_wconn wo_fine] in *. unfold less. cbn [length]. rewrite map_length. lia.
Qed.
Lemma quit_less w id : wquit w id = w \/ less w (wquit w id) [].
Proof.
  unfold wquit. destruct (conn_get (wo_conns w) id) as [c|] eqn:G; [|auto]. destruct (cn_flight c) eqn:FL; [auto|]. destruct (is_closed _ _); [|auto]. destruct (cn_sending c) eqn:SE.
  - right. destruct (conn_load w id c (with_send c (cn_queue c) None false) G) as (C1 & C2 & C3). unfold less, w_conn, w_phase, w_send, in_flight in *. cbn [with_send cn_at cn_in cn_buf cn_queue cn_flight cn_sending length] in *. rewrite SE, FL in *. cbn [length] in *. lia.
  - left. replace (with_send c (cn_queue c) None false) with c by (destruct c; cbn in *; subst; reflexivity). unfold set_wconn. rewrite conn_set_same by exact G. destruct w; reflexivity.
Qed.
(** A step of the process without anything from outside changes nothing or leaves less to do. *)
Lemma self_less evs w op w' ev : winv env key merging ka evs w -> wself op = true -> wstep env key w op = Ok (w', ev) -> (w' = w /\ ev = []) \/ less w w' ev.
Proof.
  intros V S E. destruct op as [fo|id d|id r|id|id|id rnd wr|id|id k]; try discriminate; cbn [wstep wself] in *.
  - assert (A : act w fo = Ok (w', ev) \/ Ok (w, []) = Ok (w', ev)) by (destruct fo; auto; discriminate). destruct A as [A|A]; [|injection A as <- <-; auto]. apply act_self in A; auto.
    destruct A as [A|(A1 & A2 & A3)]; [auto|]. right. unfold less. destruct ev; [contradiction|]. cbn [length] in *. lia.
  - destruct r; [|discriminate]. apply turn_less in E. tauto.
  - apply (file_less evs) in E; auto. tauto.
  - apply take_less in E. tauto.
  - apply write_less in E. tauto.
  - injection E as <- <-. destruct (quit_less w id) as [->|L]; auto.
Qed.
Hypothesis KEY : key_ok env key.
Lemma self_legal op : wself op = true -> wlegal [op]. Proof. intros S. constructor; [|constructor]. destruct op; auto; discriminate. Qed.
(** There is a bound on what can happen ... *)
Lemma self_run more : forall evs w w' e, winv env key merging ka evs w -> forallb wself more = true -> wrun env key w more = Ok (w', e) -> (load1 w' + length e <= load1 w)%nat /\ winv env key merging ka (evs ++ e) w'.
Proof.
  induction more as [|op more IH]; intros evs w w' e V B R; cbn [wrun] in R.
  - injection R as <- <-. rewrite app_nil_r. cbn. split; [lia|exact V].
  - cbn in B. apply andb_prop in B as [B1 B2]. destruct (wstep env key w op) as [[w1 e1]| |] eqn:E1; try discriminate. cbn [bind] in R. destruct (wrun env key w1 more) as [[w2 e2]| |] eqn:E2; try discriminate. cbn [bind] in R. injection R as <- <-.
    destruct (wstep_ok env key merging ka KEY evs w op V (self_legal _ B1)) as [(w1' & e1' & X & V1)|(X & _)]; rewrite E1 in X; [|discriminate]. injection X as <- <-.
    destruct (IH _ _ _ _ V1 B2 E2) as (L & V2). rewrite app_assoc, app_length. split; [|exact V2]. destruct (self_less _ _ _ _ _ V B1 E1) as [(-> & ->)|(L1 & _)]; cbn [length]; lia.
Qed.
(** ... and no schedule goes on for ever. *)
Lemma no_end : forall n m evs (ws : nat -> world) (ops : nat -> wop), (load1 (ws O) <= n)%nat -> (load2 (ws O) <= m)%nat -> winv env key merging ka evs (ws O) ->
  (forall i, wself (ops i) = true /\ wstep env key (ws i) (ops i) <> Ok (ws i, []) /\ exists e, wstep env key (ws i) (ops i) = Ok (ws (S i), e)) -> False.
Proof.
  induction n as [n IHn] using (well_founded_induction lt_wf). induction m as [m IHm] using (well_founded_induction lt_wf). intros evs ws ops L1 L2 V H.
  destruct (H O) as (S0 & N & e & E). destruct (wstep_ok env key merging ka KEY evs _ _ V (self_legal _ S0)) as [(w1 & e1 & X & V1)|(X & _)]; rewrite E in X; [|discriminate]. injection X as <- <-.
  destruct (self_less _ _ _ _ _ V S0 E) as [(X1 & ->)|(A & B)]; [rewrite X1 in E; contradiction|].
  assert (H' : forall i, wself (ops (S i)) = true /\ wstep env key (ws (S i)) (ops (S i)) <> Ok (ws (S i), []) /\ exists e, wstep env key (ws (S i)) (ops (S i)) = Ok (ws (S (S i)), e)) by (intros i; apply H).
  destruct (le_lt_dec (load1 (ws O)) (load1 (ws 1%nat))) as [C|C].
  - refine (IHm (load2 (ws 1%nat)) _ (evs ++ e) (fun i => ws (S i)) (fun i => ops (S i)) _ _ V1 H'); lia.
  - refine (IHn (load1 (ws 1%nat)) _ (load2 (ws 1%nat)) (evs ++ e) (fun i => ws (S i)) (fun i => ops (S i)) _ _ V1 H'); lia.
Qed.
End World.
