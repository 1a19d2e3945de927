(** The whole process: what is received, and what crashes it. *)
From Verif Require Import Base LibBase Bits LibBits Env Registry Message Codec Timer Session Multipart Server Host.
From Verif Require Import SpecGeo SpecEntity SpecMsg SpecStream SpecSession SpecMulti SpecTimer SpecServer.
From Verif Require Import ProofStream ProofStream2 ProofMsg ProofMsg2 ProofServer ProofServer2 ProofServer3 ProofServer4 ProofServer6 ProofServer7 ProofHost ProofHost2 ProofHost3 ProofHost4.
From Verif Require Import SpecHost.

(** ** What a step of the process may do *)
Lemma sv_run_ops ops : forall sv sv' tr, sv_run sv ops = Ok (sv', tr) -> ops_of tr = ops.
Proof.
  induction ops as [|x ops IH]; intros sv sv' tr E; cbn [sv_run] in E; [injection E as _ <-; reflexivity|].
  destruct (sv_step sv x) as [[sv1 e]| |]; try discriminate. cbn [bind] in E. destruct (sv_run sv1 ops) as [[sv2 t]| |] eqn:E2; try discriminate. cbn [bind] in E.
  injection E as _ <-. cbn [ops_of map fst]. f_equal. eapply IH; eauto.
Qed.
Lemma sv_run_quiet ops : forall sv sv' tr, (forall op, In op ops -> exists id b, op = OQueue id b) -> sv_run sv ops = Ok (sv', tr) -> tr = map (fun op => (op, [])) ops.
Proof.
  induction ops as [|x ops IH]; intros sv sv' tr Q E; cbn [sv_run] in E; [injection E as _ <-; reflexivity|].
  destruct (Q x (or_introl eq_refl)) as (i & b & ->). cbn [sv_step] in E.
  destruct (obj_get (sv_objs sv) i); cbn [bind] in E; destruct (sv_run _ ops) as [[sv2 t]| |] eqn:E2; cbn [bind] in E; try discriminate; injection E as _ <-; cbn [map]; f_equal; eapply IH; eauto; intros; apply Q; cbn; auto.
Qed.
Lemma records_queue q : (forall op, In op q -> exists id b, op = OQueue id b) -> Forall records (sv_events (map (fun op => (op, [])) q)).
Proof.
  intros Q. apply Forall_forall. intros ev I. unfold sv_events in I. rewrite map_map in I. apply in_map_iff in I. destruct I as (x & <- & I). destruct (Q x I) as (i & b & ->). exists i, b. reflexivity.
Qed.
Lemma perform_shape h op h' evs : perform h op = Ok (h', evs) -> does op evs /\ exists es, ho_conns h' = fold_left enqueue es (ho_conns h).
Proof.
  unfold perform. intros E. destruct (sv_step (ho_sv h) op) as [[sv1 es]| |]; try discriminate. cbn [bind] in E. cbv zeta in E.
  destruct (sv_run sv1 _) as [[sv2 t]| |] eqn:E2; try discriminate. cbn [bind] in E. injection E as <- <-. split; [|exists es; reflexivity].
  exists es, (sv_events t). split; auto. apply sv_run_quiet in E2; [subst t; apply records_queue|]; apply queue_ops_kind.
Qed.
Lemma consume_shape h id now c r h' evs : consume h id now c r = Ok (h', evs) -> evs = [] \/ does (OClose id) evs \/ exists m, does (ODeliver id now m) evs.
Proof.
  destruct r as [sc b]. unfold consume. intros E. destruct sc; try discriminate.
  - apply perform_shape in E. right; right. exists m. apply E.
  - apply perform_shape in E. right; left. apply E.
  - injection E as _ <-. auto.
Qed.
Lemma turn_shape env key h id now r h' evs : turn env key h id now r = Ok (h', evs) -> evs = [] \/ does (OClose id) evs \/ exists m, does (ODeliver id now m) evs.
Proof.
  unfold turn. intros E. destruct (conn_get (ho_conns h) id) as [c|]; [|injection E as _ <-; auto]. destruct (cn_at c).
  - apply consume_shape in E; auto.
  - destruct r as [k|e].
    + destruct (firstn _ (cn_in c)); [injection E as _ <-; auto|]. cbv zeta in E. destruct (65535 <? _); [|apply consume_shape in E; auto]. apply perform_shape in E. right; left. apply E.
    + apply perform_shape in E. right; left. apply E.
  - injection E as _ <-; auto.
Qed.
Lemma step_causes env key h op h' evs : host_step env key h op = Ok (h', evs) -> causes op evs.
Proof.
  intros E. destruct op; cbn [causes].
  - destruct op; cbn [host_step] in E; apply perform_shape in E; apply E.
  - cbn [host_step] in E. destruct (conn_get _ _); injection E as _ <-; auto.
  - eapply turn_shape; eauto.
  - cbn [host_step] in E. unfold take in E. destruct (conn_get (ho_conns h) id) as [c|]; [|injection E as _ <-; auto].
    destruct (cn_sending c); [|injection E as _ <-; auto]. destruct (cn_flight c); [injection E as _ <-; auto|]. destruct (cn_queue c) as [|m q]; [injection E as _ <-; auto|].
    cbv zeta in E. destruct (sv_run _ _) as [[sv2 t]| |] eqn:E2; try discriminate. cbn [bind] in E. injection E as _ <-.
    assert (Q : forall l op, In op (queue_op l id) -> exists i b, op = OQueue i b). { unfold queue_op. intros l op I. destruct (conn_get l id); [|contradiction]. destruct I as [<-|[]]. eauto. }
    apply sv_run_quiet in E2; [subst t; apply records_queue|]; apply Q.
  - cbn [host_step] in E. unfold write in E. destruct (conn_get (ho_conns h) id) as [c|]; [|injection E as _ <-; auto]. destruct (cn_flight c) as [m|]; [|injection E as _ <-; auto].
    destruct (codec_send _ _ _ _ m); [injection E as _ <-; eauto| |discriminate]. apply perform_shape in E. right; right. apply E.
  - cbn [host_step] in E. injection E as _ <-. auto.
  - cbn [host_step] in E. destruct (conn_get _ _); injection E as _ <-; auto.
Qed.
Lemma run_causes env key ops : forall h h' tr, host_run env key h ops = Ok (h', tr) -> Forall (fun x => causes (fst x) (snd x)) tr /\ hops tr = ops.
Proof.
  induction ops as [|op ops IH]; intros h h' tr E; cbn [host_run] in E; [injection E as _ <-; split; [constructor|reflexivity]|].
  destruct (host_step env key h op) as [[h1 e1]| |] eqn:E1; try discriminate. cbn [bind] in E. destruct (host_run env key h1 ops) as [[h2 t]| |] eqn:E2; try discriminate. cbn [bind] in E. injection E as _ <-.
  destruct (IH _ _ _ E2) as (A & B). split; [constructor; auto; eapply step_causes; eauto|]. cbn [hops map fst]. unfold hops in B. rewrite B. reflexivity.
Qed.
Lemma host_run_app env key ops1 : forall h h1 t1 ops2, host_run env key h ops1 = Ok (h1, t1) ->
  host_run env key h (ops1 ++ ops2) = bind (host_run env key h1 ops2) (fun x => Ok (fst x, t1 ++ snd x)).
Proof.
  induction ops1 as [|op ops IH]; intros h h1 t1 ops2 E; cbn [host_run app] in *.
  - injection E as <- <-. destruct (host_run env key h ops2) as [[]| |]; reflexivity.
  - destruct (host_step env key h op) as [[h2 e]| |]; try discriminate. cbn [bind] in *. destruct (host_run env key h2 ops) as [[h3 t3]| |] eqn:E2; try discriminate. cbn [bind] in E. injection E as <- <-.
    rewrite (IH _ _ _ ops2 E2). destruct (host_run env key h3 ops2) as [[]| |]; reflexivity.
Qed.
Lemma host_run_split env key ops1 : forall h ops2 h2 t, host_run env key h (ops1 ++ ops2) = Ok (h2, t) ->
  exists h1 t1 t2, host_run env key h ops1 = Ok (h1, t1) /\ host_run env key h1 ops2 = Ok (h2, t2) /\ t = t1 ++ t2.
Proof.
  induction ops1 as [|op ops IH]; intros h ops2 h2 t E; cbn [host_run app] in *.
  - exists h, [], t. auto.
  - destruct (host_step env key h op) as [[h3 e]| |]; try discriminate. cbn [bind] in *. destruct (host_run env key h3 (ops ++ ops2)) as [[h4 t4]| |] eqn:E2; try discriminate. cbn [bind] in E. injection E as <- <-.
    destruct (IH _ _ _ _ E2) as (h1 & t1 & t2 & A & B & ->). rewrite A. cbn [bind]. exists h1, ((op, e) :: t1), t2. auto.
Qed.

(** ** Moves of a session *)
Definition rcv (l : list (Z * conn)) (id : Z) : option (bytes * bytes * phase) := option_map (fun c => (cn_in c, cn_buf c, cn_at c)) (conn_get l id).
Lemma rcv_enqueue es l id : rcv (fold_left enqueue es l) id = rcv l id.
Proof. unfold rcv. rewrite fold_enqueue. destruct (conn_get l id); reflexivity. Qed.
Lemma rcv_set h id c x : rcv (ho_conns (set_conn h id c)) x = if id =? x then Some (cn_in c, cn_buf c, cn_at c) else rcv (ho_conns h) x.
Proof. unfold rcv. cbn [set_conn ho_conns]. rewrite conn_get_set. destruct (id =? x); reflexivity. Qed.
Lemma rcv_perform h op h' evs id : perform h op = Ok (h', evs) -> rcv (ho_conns h') id = rcv (ho_conns h) id.
Proof. intros E. apply perform_shape in E. destruct E as (_ & es & ->). apply rcv_enqueue. Qed.
Lemma rcv_consume h i now c r h' evs id : consume h i now c r = Ok (h', evs) -> i <> id -> rcv (ho_conns h') id = rcv (ho_conns h) id.
Proof.
  destruct r as [sc b]. unfold consume. intros E N. destruct sc; try discriminate; [apply rcv_perform with (id := id) in E; rewrite E..|injection E as <- _]; rewrite rcv_set; destruct (Z.eqb_spec i id); congruence.
Qed.
(** The receiving side of a session is its own business. *)
Lemma rcv_step env key h op h' evs id : host_step env key h op = Ok (h', evs) ->
  match op with HOp (OConnect i _) | HTurn i _ _ => i <> id | HArrive i d => i <> id \/ d = [] | _ => True end -> rcv (ho_conns h') id = rcv (ho_conns h) id.
Proof.
  intros E N. destruct op; cbn [host_step] in E.
  - destruct op; apply rcv_perform with (id := id) in E; auto. rewrite E, rcv_set. destruct (Z.eqb_spec id0 id); congruence.
  - destruct (conn_get (ho_conns h) id0) as [c|] eqn:G; injection E as <- _; auto. rewrite rcv_set. destruct (Z.eqb_spec id0 id) as [->|]; auto. destruct N as [N| ->]; [congruence|]. rewrite app_nil_r. unfold rcv. rewrite G. reflexivity.
  - unfold turn in E. destruct (conn_get (ho_conns h) id0) as [c|]; [|injection E as <- _; auto]. destruct (cn_at c).
    + eapply rcv_consume; eauto.
    + destruct r as [k|e].
      * destruct (firstn _ (cn_in c)); [injection E as <- _; auto|]. cbv zeta in E. destruct (65535 <? _); [|eapply rcv_consume in E; eauto]. apply rcv_perform with (id := id) in E. rewrite E, rcv_set. destruct (Z.eqb_spec id0 id); congruence.
      * apply rcv_perform with (id := id) in E. rewrite E, rcv_set. destruct (Z.eqb_spec id0 id); congruence.
    + injection E as <- _; auto.
  - unfold take in E. destruct (conn_get (ho_conns h) id0) as [c|] eqn:G; [|injection E as <- _; auto].
    destruct (cn_sending c); [|injection E as <- _; auto]. destruct (cn_flight c); [injection E as <- _; auto|]. destruct (cn_queue c) as [|m q]; [injection E as <- _; auto|].
    cbv zeta in E. destruct (sv_run _ _) as [[sv2 t]| |] eqn:E2; try discriminate. cbn [bind] in E. injection E as <- _. unfold rcv. cbn [ho_conns set_conn]. rewrite conn_get_set. destruct (Z.eqb_spec id0 id) as [->|]; auto. rewrite G. reflexivity.
  - unfold write in E. destruct (conn_get (ho_conns h) id0) as [c|] eqn:G; [|injection E as <- _; auto]. destruct (cn_flight c) as [m|]; [|injection E as <- _; auto].
    destruct (codec_send _ _ _ _ m); [injection E as <- _|apply rcv_perform with (id := id) in E; rewrite E|discriminate]; rewrite rcv_set; (destruct (Z.eqb_spec id0 id) as [->|]; auto); unfold rcv; rewrite G; reflexivity.
  - injection E as <- _. unfold quit. destruct (conn_get (ho_conns h) id0) as [c|] eqn:G; auto. destruct (obj_get _ _) as [ob|]; auto. destruct (cn_flight c); auto. destruct (so_closed ob); auto.
    rewrite rcv_set. destruct (Z.eqb_spec id0 id) as [->|]; auto. unfold rcv. rewrite G. reflexivity.
  - destruct (conn_get (ho_conns h) id0) as [c|] eqn:G; injection E as <- _; auto. rewrite rcv_set. destruct (Z.eqb_spec id0 id) as [->|]; auto. unfold rcv. rewrite G. reflexivity.
Qed.
(** A session waits when it has read all there is, or has left. *)
Definition at_rest (x : option (bytes * bytes * phase)) : Prop := match x with None => True | Some (i, b, p) => p = Left \/ p = InRead /\ i = [] end.
Definition load (x : option (bytes * bytes * phase)) : nat :=
  match x with None | Some (_, _, Left) => 0 | Some (i, b, AtStart) => 3 * length i + 2 * length b + 1 | Some (i, b, InRead) => 3 * length i + 2 * length b end.
Lemma consume_less env key h id now c h' evs : consume h id now c (read_from_buffer env key (cn_buf c)) = Ok (h', evs) ->
  at_rest (rcv (ho_conns h') id) \/ (load (rcv (ho_conns h') id) <= 3 * length (cn_in c) + 2 * length (cn_buf c))%nat.
Proof.
  destruct (read_from_buffer env key (cn_buf c)) as [sc b] eqn:R. apply rfb_step in R. unfold consume. intros E. destruct sc; try discriminate.
  - apply rcv_perform with (id := id) in E. rewrite E, rcv_set, Z.eqb_refl. destruct R as (f & R & _). right. rewrite R. cbn [with_recv cn_in cn_buf cn_at load length]. rewrite app_length. cbn [length]. lia.
  - apply rcv_perform with (id := id) in E. rewrite E, rcv_set, Z.eqb_refl. left. left. reflexivity.
  - injection E as <- _. rewrite rcv_set, Z.eqb_refl. destruct R as (-> & _). right. cbn [with_recv cn_in cn_buf cn_at load]. lia.
Qed.
Lemma turn_less env key h id now r h' evs : turn env key h id now r = Ok (h', evs) ->
  at_rest (rcv (ho_conns h') id) \/ (load (rcv (ho_conns h') id) < load (rcv (ho_conns h) id))%nat.
Proof.
  unfold turn. intros E. destruct (conn_get (ho_conns h) id) as [c|] eqn:G.
  2:{ injection E as <- _. left. unfold rcv. rewrite G. exact Logic.I. }
  assert (RC : rcv (ho_conns h) id = Some (cn_in c, cn_buf c, cn_at c)) by (unfold rcv; rewrite G; reflexivity).
  destruct (cn_at c) eqn:P.
  - apply consume_less in E. destruct E as [E|E]; auto. right. rewrite RC. unfold load at 2. lia.
  - destruct r as [k|e].
    + set (n := Nat.max 1 (Nat.min k 128)) in *. assert (N : (1 <= n)%nat) by lia. destruct (firstn n (cn_in c)) as [|x d] eqn:F.
      { injection E as <- _. left. rewrite RC. right. split; auto. destruct (cn_in c); auto. destruct n; [lia|discriminate]. }
      pose proof (firstn_skipn n (cn_in c)) as SP. rewrite F in SP. cbv zeta in E. destruct (65535 <? _).
      * apply rcv_perform with (id := id) in E. rewrite E, rcv_set, Z.eqb_refl. left. left. reflexivity.
      * apply consume_less in E. cbn [with_recv cn_in cn_buf] in E. destruct E as [E|E]; auto. right. rewrite RC. unfold load at 2. rewrite <- SP. rewrite app_length in *. cbn [length] in *. lia.
    + apply rcv_perform with (id := id) in E. rewrite E, rcv_set, Z.eqb_refl. left. left. reflexivity.
  - injection E as <- _. left. rewrite RC. left. reflexivity.
Qed.
Lemma rest_turn env key h id now r h' evs : turn env key h id now r = Ok (h', evs) -> at_rest (rcv (ho_conns h) id) -> at_rest (rcv (ho_conns h') id).
Proof.
  unfold turn. intros E R. destruct (conn_get (ho_conns h) id) as [c|] eqn:G; [|injection E as <- _; auto].
  assert (RC : rcv (ho_conns h) id = Some (cn_in c, cn_buf c, cn_at c)) by (unfold rcv; rewrite G; reflexivity). pose proof R as R0. rewrite RC in R. cbn [at_rest] in R.
  destruct (cn_at c) eqn:P.
  - destruct R as [R|(R & _)]; discriminate.
  - destruct R as [R|(_ & R)]; [discriminate|]. destruct r as [k|e].
    + rewrite R, firstn_nil in E. injection E as <- _. exact R0.
    + apply rcv_perform with (id := id) in E. rewrite E, rcv_set, Z.eqb_refl. left. reflexivity.
  - injection E as <- _. exact R0.
Qed.
Lemma nat_less a b k : (a < b)%nat -> (S k <= b - a + k)%nat. Proof. lia. Qed.
Lemma moves_cons id op ops : moves id (op :: ops) = ((match op with HTurn i _ _ => if Z.eqb i id then 1 else 0 | _ => 0 end) + moves id ops)%nat.
Proof. unfold moves. cbn [filter]. destruct op; auto. destruct (id0 =? id); reflexivity. Qed.
Lemma arrived_cons id op ops : arrived id (op :: ops) = (match op with HArrive i d => if i =? id then d else [] | _ => [] end) ++ arrived id ops.
Proof. reflexivity. Qed.
Lemma comes_to_rest env key id ops : forall h h' tr, host_run env key h ops = Ok (h', tr) -> arrived id ops = [] -> ~ In id (accepted ops) ->
  at_rest (rcv (ho_conns h') id) \/ (load (rcv (ho_conns h') id) + moves id ops <= load (rcv (ho_conns h) id))%nat /\ ~ at_rest (rcv (ho_conns h') id).
Proof.
  assert (KEEP : forall ops h h' tr, host_run env key h ops = Ok (h', tr) -> arrived id ops = [] -> ~ In id (accepted ops) -> at_rest (rcv (ho_conns h) id) -> at_rest (rcv (ho_conns h') id)).
  { clear ops. induction ops as [|op ops IH]; intros h h' tr E A C R; cbn [host_run] in E; [injection E as <- _; auto|].
    destruct (host_step env key h op) as [[h1 e1]| |] eqn:E1; try discriminate. cbn [bind] in E. destruct (host_run env key h1 ops) as [[h2 t]| |] eqn:E2; try discriminate. cbn [bind] in E. injection E as <- _.
    rewrite arrived_cons in A. apply app_eq_nil in A. destruct A as (A1 & A2).
    assert (C2 : ~ In id (accepted ops)). { intros X. apply C. unfold accepted. cbn [flat_map]. apply in_app_iff. auto. }
    apply (IH _ _ _ E2 A2 C2).
    assert (D : (exists now r, op = HTurn id now r) \/ match op with HOp (OConnect i _) | HTurn i _ _ => i <> id | HArrive i d => i <> id \/ d = [] | _ => True end).
    { destruct op; auto.
      - right. destruct op; auto. intros ->. apply C. cbn. auto.
      - right. destruct (Z.eqb_spec id0 id); auto.
      - destruct (Z.eq_dec id0 id) as [->|]; eauto. }
    destruct D as [(now & r & ->)|D].
    - eapply rest_turn; eauto.
    - rewrite (rcv_step _ _ _ _ _ _ id E1 D). exact R. }
  induction ops as [|op ops IH]; intros h h' tr E A C.
  - cbn [host_run] in E. injection E as <- _. destruct (rcv (ho_conns h) id) as [[[i b] p]|] eqn:R; [|left; exact Logic.I].
    destruct p; [right|destruct i as [|x i]; [left; right; auto|right]|left; left; auto]; (split; [unfold moves; cbn; lia|cbn [at_rest]]); intros [X|(X & Y)]; discriminate.
  - pose proof E as E0. cbn [host_run] in E.
    destruct (host_step env key h op) as [[h1 e1]| |] eqn:E1; try discriminate. cbn [bind] in E. destruct (host_run env key h1 ops) as [[h2 t]| |] eqn:E2; try discriminate. cbn [bind] in E. injection E as <- _.
    rewrite arrived_cons in A. apply app_eq_nil in A. destruct A as (A1 & A2).
    assert (C2 : ~ In id (accepted ops)). { intros X. apply C. unfold accepted. cbn [flat_map]. apply in_app_iff. auto. }
    rewrite moves_cons. destruct (IH _ _ _ E2 A2 C2) as [R|(L & NR)]; [left; exact R|].
    assert (NR1 : ~ at_rest (rcv (ho_conns h1) id)). { intros X. apply NR. exact (KEEP _ _ _ _ E2 A2 C2 X). }
    right. split; [|exact NR].
    assert (D : (exists now r, op = HTurn id now r) \/ match op with HOp (OConnect i _) | HTurn i _ _ => i <> id | HArrive i d => i <> id \/ d = [] | _ => True end).
    { destruct op; auto.
      - right. destruct op; auto. intros ->. apply C. cbn. auto.
      - right. destruct (Z.eqb_spec id0 id); auto.
      - destruct (Z.eq_dec id0 id) as [->|]; eauto. }
    destruct D as [(now & r & ->)|D].
    + rewrite Z.eqb_refl. destruct (turn_less _ _ _ _ _ _ _ _ E1) as [X|X]; [contradiction|]. lia.
    + rewrite (rcv_step _ _ _ _ _ _ id E1 D) in L.
      assert (Z0 : match op with HTurn i _ _ => if i =? id then 1%nat else 0%nat | _ => 0%nat end = 0%nat). { destruct op; auto. destruct (Z.eqb_spec id0 id); [contradiction|reflexivity]. }
      rewrite Z0. exact L.
Qed.
