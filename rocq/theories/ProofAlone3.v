(** A connection and the process without the other ones, in lockstep: histories. *)
From Verif Require Import Base LibBase Bits Bcd Env EntTerm EntPlat Registry Message Codec Timer Session Multipart Server Host.
From Verif Require Import SpecGeo SpecEntity SpecMsg SpecStream SpecSession SpecMulti SpecTimer SpecServer SpecHost SpecAlone.
From Verif Require Import LibBcd LibMulti ProofTimer ProofTimer2 ProofServer ProofHost ProofHost6 ProofAlone ProofAlone2.

Section Alone.
Variable id : Z.
Variable P : bytes -> Prop.
Variable mg : bool.
Notation sim := (ProofAlone.sim id P mg).
Notation okop := (ProofAlone2.okop id P mg).

(** ** Connections *)
Definition csim (l k : list (Z * conn)) : Prop := conn_get l id = conn_get k id /\ forall i, i <> id -> conn_get k i = None.
Lemma csim_own l k c : csim l k -> csim (conn_set l id c) (conn_set k id c).
Proof. intros (A & B). split; [rewrite !conn_get_set, Z.eqb_refl; reflexivity|]. intros i H. rewrite conn_get_set. destruct (Z.eqb_spec id i); [congruence|auto]. Qed.
Lemma csim_other l k i c : i <> id -> csim l k -> csim (conn_set l i c) k.
Proof. intros H (A & B). split; auto. rewrite conn_get_set. destruct (Z.eqb_spec i id); [congruence|auto]. Qed.
Lemma enqueue_sim evs : forall l k, csim l k -> csim (fold_left enqueue evs l) (fold_left enqueue (filter (owned id) evs) k).
Proof.
  induction evs as [|ev evs IH]; intros l k C; cbn [fold_left filter]; auto. destruct (owned id ev) eqn:O.
  - cbn [fold_left]. apply IH. destruct ev; cbn [enqueue]; auto. unfold owned in O. cbn in O. assert (id0 = id) as -> by lia. rewrite <- (proj1 C). destruct (conn_get l id); auto. apply csim_own; auto.
  - apply IH. destruct ev; cbn [enqueue]; auto. unfold owned in O. cbn in O. destruct (conn_get l id0); auto. apply csim_other; auto. lia.
Qed.
Lemma enqueue_pure evs : forall k, pure id evs -> fold_left enqueue evs k = fold_left enqueue (filter (owned id) evs) k.
Proof.
  induction evs as [|ev evs IH]; intros k F; auto. inversion F as [|? ? X Y]; subst. cbn [fold_left filter]. unfold owned at 1. destruct (owner ev) as [i|] eqn:O.
  - subst i. rewrite Z.eqb_refl. cbn [fold_left]. apply IH; auto.
  - destruct ev; cbn in O; try discriminate. cbn [enqueue]. apply IH; auto.
Qed.
Definition qops (l : list (Z * conn)) (evs : list sv_event) : list sv_op := flat_map (fun ev => match ev with SvSend i _ => queue_op l i | _ => [] end) evs.
Lemma queue_op_own l k : csim l k -> queue_op l id = queue_op k id.
Proof. intros (A & _). unfold queue_op. rewrite A. reflexivity. Qed.
Lemma queue_op_keep l : filter (sv_concerns id) (queue_op l id) = queue_op l id.
Proof. unfold queue_op. destruct (conn_get l id); auto. cbn. rewrite Z.eqb_refl. reflexivity. Qed.
Lemma queue_op_drop l i : i <> id -> filter (sv_concerns id) (queue_op l i) = [].
Proof. intros N. unfold queue_op. destruct (conn_get l i); auto. cbn. destruct (Z.eqb_spec i id); [contradiction|auto]. Qed.
Lemma qops_sim l k evs : csim l k -> filter (sv_concerns id) (qops l evs) = qops k (filter (owned id) evs).
Proof.
  intros C. unfold qops. induction evs as [|ev evs IH]; auto. cbn [flat_map filter]. rewrite filter_app, IH. destruct (owned id ev) eqn:O.
  - cbn [flat_map]. f_equal. destruct ev; auto. unfold owned in O. cbn in O. assert (id0 = id) as -> by lia. rewrite queue_op_keep. apply queue_op_own; auto.
  - destruct ev; auto. unfold owned in O. cbn in O. rewrite queue_op_drop by lia. reflexivity.
Qed.
Lemma qops_pure k evs : pure id evs -> qops k evs = qops k (filter (owned id) evs).
Proof.
  unfold qops. induction 1 as [|ev evs X Y IH]; auto. cbn [flat_map filter]. unfold owned at 1. destruct (owner ev) as [i|] eqn:O.
  - subst i. rewrite Z.eqb_refl. cbn [flat_map]. rewrite IH. reflexivity.
  - destruct ev; cbn in O; try discriminate. apply IH.
Qed.
Definition is_queue (o : sv_op) : Prop := exists i b, o = OQueue i b.
Lemma queue_op_queue l i : Forall is_queue (queue_op l i).
Proof. unfold queue_op. destruct (conn_get l i); auto. constructor; auto. unfold is_queue. eauto. Qed.
Lemma qops_queue l evs : Forall is_queue (qops l evs).
Proof.
  unfold qops. induction evs as [|ev evs IH]; cbn; auto. apply Forall_app. split; auto. destruct ev; auto. unfold queue_op. destruct (conn_get l id0); auto. constructor; auto. unfold is_queue. eauto.
Qed.
Definition quiet_trace (tr : list (sv_op * list sv_event)) : Prop := flat_map (notice id) (sv_events tr) = [].
Lemma queues_run qs : forall a b a' tr, Forall is_queue qs -> sim a b -> sv_run a qs = Ok (a', tr) ->
  exists b' tr', sv_run b (filter (sv_concerns id) qs) = Ok (b', tr') /\ sim a' b' /\ quiet_trace tr /\ quiet_trace tr'.
Proof.
  induction qs as [|q qs IH]; intros a b a' tr F S; cbn [sv_run filter].
  - intros E. injection E as <- <-. exists b, []. split; auto. split; auto. split; reflexivity.
  - inversion F as [|? ? (i & full & ->) F']; subst. destruct (sv_step a (OQueue i full)) as [[a1 e1]|e|] eqn:E1; cbn [bind]; try discriminate.
    destruct (sv_run a1 qs) as [[a2 t2]|e|] eqn:E2; cbn [bind]; try discriminate. intros E. injection E as <- <-.
    assert (X : e1 = []) by (cbn in E1; destruct (obj_get (sv_objs a) i); injection E1 as <- <-; reflexivity). subst e1.
    destruct (sv_concerns id (OQueue i full)) eqn:C.
    + destruct (own_step id P mg a b _ _ _ S C I E1) as (b1 & e2 & B & S1 & Y & _). assert (e2 = []) as -> by (cbn in B; destruct (obj_get (sv_objs b) i); injection B as <- <-; reflexivity).
      destruct (IH _ _ _ _ F' S1 E2) as (b2 & t3 & B2 & S2 & Q1 & Q2). cbn [sv_run]. rewrite B. cbn [bind]. rewrite B2. cbn [bind]. eexists _, _. split; [reflexivity|]. split; [exact S2|split; [exact Q1|exact Q2]].
    + destruct (other_step id P mg a b _ _ _ S C I E1) as (S1 & _). destruct (IH _ _ _ _ F' S1 E2) as (b2 & t3 & B2 & S2 & Q1 & Q2). eexists _, _. split; [exact B2|]. split; [exact S2|split; [exact Q1|exact Q2]].
Qed.

(** ** Operations with what they put into channels *)
Definition hsim (h k : host) : Prop := sim (ho_sv h) (ho_sv k) /\ csim (ho_conns h) (ho_conns k).
Lemma hsim_own h k c : hsim h k -> hsim (set_conn h id c) (set_conn k id c).
Proof. intros (A & B). split; auto. apply csim_own; auto. Qed.
Lemma hsim_other h k i c : i <> id -> hsim h k -> hsim (set_conn h i c) k.
Proof. intros N (A & B). split; auto. apply csim_other; auto. Qed.
Lemma notice_served op evs tr : quiet_trace tr -> flat_map (notice id) (HSv op evs :: sv_events tr) = notice id (HSv op evs).
Proof. intros Q. cbn [flat_map]. rewrite Q. apply app_nil_r. Qed.
Lemma perform_own h k op h' e1 : hsim h k -> sv_concerns id op = true -> okop op -> perform h op = Ok (h', e1) ->
  exists k' e2, perform k op = Ok (k', e2) /\ hsim h' k' /\ flat_map (notice id) e1 = flat_map (notice id) e2.
Proof.
  intros (S & C) CO OK. unfold perform. destruct (sv_step (ho_sv h) op) as [[a1 evs]|e|] eqn:E1; cbn [bind]; try discriminate.
  destruct (own_step id P mg _ _ _ _ _ S CO OK E1) as (b1 & evs2 & -> & S1 & F & PU). cbn [bind].
  fold (qops (fold_left enqueue evs (ho_conns h)) evs). fold (qops (fold_left enqueue evs2 (ho_conns k)) evs2).
  pose proof (enqueue_sim evs _ _ C) as C1. rewrite F in C1. rewrite <- (enqueue_pure evs2 _ PU) in C1.
  destruct (sv_run a1 _) as [[a2 t2]|e|] eqn:E2; cbn [bind]; try discriminate. intros E. injection E as <- <-.
  destruct (queues_run _ _ _ _ _ (qops_queue _ _) S1 E2) as (b2 & t3 & B2 & S2 & Q1 & Q2). rewrite (qops_sim _ _ _ C1), F, <- (qops_pure _ evs2 PU) in B2. rewrite B2. cbn [bind].
  eexists _, _. split; [reflexivity|]. split; [split; auto|]. rewrite !notice_served by auto. cbn [notice]. rewrite F. reflexivity.
Qed.
Lemma perform_other h k op h' e1 : hsim h k -> sv_concerns id op = false -> okop op -> perform h op = Ok (h', e1) ->
  hsim h' k /\ flat_map (notice id) e1 = [].
Proof.
  intros (S & C) CO OK. unfold perform. destruct (sv_step (ho_sv h) op) as [[a1 evs]|e|] eqn:E1; cbn [bind]; try discriminate.
  destruct (other_step id P mg _ _ _ _ _ S CO OK E1) as (S1 & F).
  fold (qops (fold_left enqueue evs (ho_conns h)) evs). pose proof (enqueue_sim evs _ _ C) as C1. rewrite F in C1. cbn [fold_left] in C1.
  destruct (sv_run a1 _) as [[a2 t2]|e|] eqn:E2; cbn [bind]; try discriminate. intros E. injection E as <- <-.
  destruct (queues_run _ _ _ _ _ (qops_queue _ _) S1 E2) as (b2 & t3 & B2 & S2 & Q1 & Q2). rewrite (qops_sim _ _ _ C1), F in B2. injection B2 as <- <-.
  split; [split; auto|]. rewrite notice_served by auto. cbn [notice]. rewrite F. destruct op; auto. cbn in CO. rewrite CO. reflexivity.
Qed.

(** ** Steps of the process *)
Definition okops (e : list host_event) : Prop := forall op evs, In (HSv op evs) e -> okop op.
Lemma perform_head h op h' e : perform h op = Ok (h', e) -> exists evs, In (HSv op evs) e.
Proof.
  unfold perform. destruct (sv_step (ho_sv h) op) as [[a1 evs]|x|]; cbn [bind]; try discriminate. destruct (sv_run a1 _) as [[a2 t2]|x|]; cbn [bind]; try discriminate.
  intros E. injection E as <- <-. exists evs. left. reflexivity.
Qed.
Lemma perform_own' h k op h' e1 : hsim h k -> sv_concerns id op = true -> okops e1 -> perform h op = Ok (h', e1) ->
  exists k' e2, perform k op = Ok (k', e2) /\ hsim h' k' /\ flat_map (notice id) e1 = flat_map (notice id) e2.
Proof. intros S C O E. destruct (perform_head _ _ _ _ E) as (evs & I). eapply perform_own; eauto. Qed.
Lemma perform_other' h k op h' e1 : hsim h k -> sv_concerns id op = false -> okops e1 -> perform h op = Ok (h', e1) ->
  hsim h' k /\ flat_map (notice id) e1 = [].
Proof. intros S C O E. destruct (perform_head _ _ _ _ E) as (evs & I). eapply perform_other; eauto. Qed.

Variable env : Env.
Variable key : option Z.
Lemma consume_own h k now c r h' e1 : hsim h k -> okops e1 -> consume h id now c r = Ok (h', e1) ->
  exists k' e2, consume k id now c r = Ok (k', e2) /\ hsim h' k' /\ flat_map (notice id) e1 = flat_map (notice id) e2.
Proof.
  intros S O. unfold consume. destruct r as ([m|e| |], b).
  - intros E. refine (perform_own' _ _ _ _ _ (hsim_own _ _ _ S) _ O E). cbn. apply Z.eqb_refl.
  - intros E. refine (perform_own' _ _ _ _ _ (hsim_own _ _ _ S) _ O E). cbn. apply Z.eqb_refl.
  - intros E. injection E as <- <-. eexists _, _. split; [reflexivity|]. split; auto using hsim_own.
  - discriminate.
Qed.
Lemma consume_other h k i now c r h' e1 : i <> id -> hsim h k -> okops e1 -> consume h i now c r = Ok (h', e1) -> hsim h' k /\ flat_map (notice id) e1 = [].
Proof.
  intros N S O. unfold consume. destruct r as ([m|e| |], b).
  - intros E. refine (perform_other' _ _ _ _ _ (hsim_other _ _ _ _ N S) _ O E). cbn. lia.
  - intros E. refine (perform_other' _ _ _ _ _ (hsim_other _ _ _ _ N S) _ O E). cbn. lia.
  - intros E. injection E as <- <-. split; auto using hsim_other.
  - discriminate.
Qed.
Lemma step_own h k op h' e1 : hsim h k -> concerns id op = true -> okops e1 -> host_step env key h op = Ok (h', e1) ->
  exists k' e2, host_step env key k op = Ok (k', e2) /\ hsim h' k' /\ flat_map (notice id) e1 = flat_map (notice id) e2.
Proof.
  intros S C O. pose proof (proj1 (proj2 S)) as G.
  assert (stay : forall r, r = Ok (k, []) -> Ok (h, []) = Ok (h', e1) -> exists k' e2, r = Ok (k', e2) /\ hsim h' k' /\ flat_map (notice id) e1 = flat_map (notice id) e2).
  { intros r -> E. injection E as <- <-. exists k, []. auto. }
  assert (ID : sv_concerns id (OClose id) = true) by (cbn; apply Z.eqb_refl).
  destruct op as [op|i d|i now r|i|i rnd wr|i|i kk]; cbn [concerns] in C; try (assert (i = id) as -> by lia); cbn [host_step].
  - destruct op; try (intros E; eapply perform_own'; eauto; fail). cbn in C. assert (id0 = id) as -> by lia.
    intros E. refine (perform_own' _ _ _ _ _ (hsim_own _ _ _ S) _ O E). cbn. apply Z.eqb_refl.
  - rewrite <- G. destruct (conn_get (ho_conns h) id); [|apply stay; auto]. intros E. injection E as <- <-. eexists _, _. split; [reflexivity|]. split; auto using hsim_own.
  - unfold turn. rewrite <- G. destruct (conn_get (ho_conns h) id) as [c|]; [|apply stay; auto]. destruct (cn_at c); [|destruct r as [n|x]|apply stay; auto].
    + intros E. eapply consume_own; eauto.
    + destruct (firstn _ (cn_in c)) as [|b0 d]; [apply stay; auto|]. cbv zeta. destruct (65535 <? _).
      * intros E. exact (perform_own' _ _ _ _ _ (hsim_own _ _ _ S) ID O E).
      * intros E. eapply consume_own; eauto.
    + intros E. exact (perform_own' _ _ _ _ _ (hsim_own _ _ _ S) ID O E).
  - unfold take. rewrite <- G. destruct (conn_get (ho_conns h) id) as [c|]; [|apply stay; auto].
    destruct (cn_sending c), (cn_flight c) as [m0|], (cn_queue c) as [|m q]; try (apply stay; auto; fail).
    cbv zeta. pose proof (hsim_own h k (with_send c q (Some m) true) S) as (S1 & C1).
    destruct (sv_run _ _) as [[a t]|x|] eqn:E1; cbn [bind]; try discriminate. intros E. injection E as <- <-.
    assert (Q : Forall is_queue (queue_op (ho_conns (set_conn h id (with_send c q (Some m) true))) id)) by apply queue_op_queue.
    destruct (queues_run _ _ _ _ _ Q S1 E1) as (b & t' & B & S2 & Q1 & Q2). rewrite queue_op_keep, (queue_op_own _ _ C1) in B. rewrite B. cbn [bind].
    eexists _, _. split; [reflexivity|]. split; [split; auto|]. unfold quiet_trace in *. congruence.
  - unfold write. rewrite <- G. destruct (conn_get (ho_conns h) id) as [c|]; [|apply stay; auto]. destruct (cn_flight c) as [m|]; [|apply stay; auto].
    destruct (codec_send _ _ _ _ _) as [d|x|]; [| |discriminate].
    + intros E. injection E as <- <-. eexists _, _. split; [reflexivity|]. split; auto using hsim_own.
    + intros E. exact (perform_own' _ _ _ _ _ (hsim_own _ _ _ S) ID O E).
  - intros E. injection E as <- <-. eexists _, _. split; [reflexivity|]. split; auto. unfold quit. rewrite <- G, <- (s_obj _ _ _ _ _ (proj1 S)).
    destruct (conn_get (ho_conns h) id) as [c|]; auto. destruct (obj_get _ id) as [o|]; auto. destruct (cn_flight c); auto. destruct (so_closed o); auto using hsim_own.
  - rewrite <- G. destruct (conn_get (ho_conns h) id); [|apply stay; auto]. intros E. injection E as <- <-. eexists _, _. split; [reflexivity|]. split; auto using hsim_own.
Qed.
Lemma step_other h k op h' e1 : hsim h k -> concerns id op = false -> okops e1 -> host_step env key h op = Ok (h', e1) ->
  hsim h' k /\ flat_map (notice id) e1 = [].
Proof.
  intros S C O.
  assert (stay : Ok (h, []) = Ok (h', e1) -> hsim h' k /\ flat_map (notice id) e1 = []) by (intros E; injection E as <- <-; auto).
  destruct op as [op|i d|i now r|i|i rnd wr|i|i kk]; cbn [concerns] in C; try (assert (N : i <> id) by lia; assert (ID : sv_concerns id (OClose i) = false) by (cbn; lia)); cbn [host_step].
  - destruct op; try (intros E; eapply perform_other'; eauto; fail). intros E. pose proof C as C'. cbn in C'. assert (N : id0 <> id) by lia. exact (perform_other' _ _ _ _ _ (hsim_other _ _ _ _ N S) C O E).
  - destruct (conn_get (ho_conns h) i); auto. intros E. injection E as <- <-. split; auto using hsim_other.
  - unfold turn. destruct (conn_get (ho_conns h) i) as [c|]; auto. destruct (cn_at c); [|destruct r as [n|x]|auto].
    + intros E. eapply consume_other; eauto.
    + destruct (firstn _ (cn_in c)) as [|b0 d]; auto. cbv zeta. destruct (65535 <? _).
      * intros E. exact (perform_other' _ _ _ _ _ (hsim_other _ _ _ _ N S) ID O E).
      * intros E. eapply consume_other; eauto.
    + intros E. exact (perform_other' _ _ _ _ _ (hsim_other _ _ _ _ N S) ID O E).
  - unfold take. destruct (conn_get (ho_conns h) i) as [c|]; auto.
    destruct (cn_sending c), (cn_flight c) as [m0|], (cn_queue c) as [|m q]; auto.
    cbv zeta. pose proof (hsim_other h k i (with_send c q (Some m) true) N S) as (S1 & C1).
    destruct (sv_run _ _) as [[a t]|x|] eqn:E1; cbn [bind]; try discriminate. intros E. injection E as <- <-.
    assert (Q : Forall is_queue (queue_op (ho_conns (set_conn h i (with_send c q (Some m) true))) i)) by apply queue_op_queue.
    destruct (queues_run _ _ _ _ _ Q S1 E1) as (b & t' & B & S2 & Q1 & Q2). rewrite queue_op_drop in B by auto. injection B as <- <-. split; auto. split; auto.
  - unfold write. destruct (conn_get (ho_conns h) i) as [c|]; auto. destruct (cn_flight c) as [m|]; auto.
    destruct (codec_send _ _ _ _ _) as [d|x|]; [| |discriminate].
    + intros E. injection E as <- <-. split; auto using hsim_other. cbn. destruct (Z.eqb_spec i id); [contradiction|auto].
    + intros E. exact (perform_other' _ _ _ _ _ (hsim_other _ _ _ _ N S) ID O E).
  - intros E. injection E as <- <-. split; auto. unfold quit.
    destruct (conn_get (ho_conns h) i) as [c|]; auto. destruct (obj_get _ i) as [o|]; auto. destruct (cn_flight c); auto. destruct (so_closed o); auto using hsim_other.
  - destruct (conn_get (ho_conns h) i); auto. intros E. injection E as <- <-. split; auto using hsim_other.
Qed.
Lemma run_sim ops : forall h k h' tr, hsim h k -> (forall x, In x tr -> okops (snd x)) -> host_run env key h ops = Ok (h', tr) ->
  exists k' tr', host_run env key k (alone id ops) = Ok (k', tr') /\ experience id tr' = experience id tr.
Proof.
  unfold experience, alone. induction ops as [|op ops IH]; intros h k h' tr S O; cbn [host_run filter].
  - intros E. injection E as <- <-. exists k, []. auto.
  - destruct (host_step env key h op) as [[h1 e1]|x|] eqn:E1; cbn [bind]; try discriminate. destruct (host_run env key h1 ops) as [[h2 t2]|x|] eqn:E2; cbn [bind]; try discriminate.
    intros E. injection E as <- <-. assert (O1 : okops e1) by (apply (O (op, e1)); left; auto). assert (O2 : forall x, In x t2 -> okops (snd x)) by (intros; apply O; right; auto).
    cbn [flat_map snd]. rewrite flat_map_app. destruct (concerns id op) eqn:C.
    + destruct (step_own _ _ _ _ _ S C O1 E1) as (k1 & e2 & B & S1 & N). destruct (IH _ _ _ _ S1 O2 E2) as (k2 & t3 & B2 & X). cbn [host_run]. rewrite B. cbn [bind]. rewrite B2. cbn [bind].
      eexists _, _. split; [reflexivity|]. cbn [flat_map snd]. rewrite flat_map_app. congruence.
    + destruct (step_other _ _ _ _ _ S C O1 E1) as (S1 & ->). apply (IH _ _ _ _ S1 O2 E2).
Qed.
End Alone.

(** ** The theorem *)
Lemma accepted_alone id ops : accepted (alone id ops) = filter (fun i => i =? id) (accepted ops).
Proof.
  unfold accepted, alone. induction ops as [|o ops IH]; auto. cbn [filter flat_map]. rewrite filter_app. destruct (concerns id o) eqn:C.
  - cbn [flat_map]. rewrite IH. f_equal. destruct o; auto. destruct op; auto. cbn in C. cbn. rewrite C. reflexivity.
  - rewrite IH. destruct o; auto. destruct op; auto. cbn in C. cbn. rewrite C. reflexivity.
Qed.
Lemma requested_alone id ops t : In t (requested (alone id ops)) -> In t (requested ops).
Proof. unfold requested, alone. rewrite !in_flat_map. intros (o & I & H). apply filter_In in I. exists o. tauto. Qed.
Lemma alone_cut id : forall ops pre o post, alone id ops = pre ++ o :: post -> exists a b, ops = a ++ o :: b /\ alone id a = pre /\ concerns id o = true.
Proof.
  unfold alone. induction ops as [|x ops IH]; intros pre o post; cbn [filter]; [destruct pre; discriminate|]. destruct (concerns id x) eqn:C.
  - destruct pre as [|y pre]; cbn [app]; intros E; injection E as E1 E2.
    + subst. exists [], ops. auto.
    + subst y. destruct (IH _ _ _ E2) as (a & b & -> & <- & H). exists (x :: a), b. cbn. rewrite C. auto.
  - intros E. destruct (IH _ _ _ E) as (a & b & -> & <- & H). exists (x :: a), b. cbn. rewrite C. auto.
Qed.
Lemma alone_legal id ops : hlegal ops -> hlegal (alone id ops).
Proof.
  intros L pre o post E. destruct (alone_cut id ops pre o post E) as (a & b & -> & <- & C). specialize (L a o b eq_refl).
  destruct o as [op|i d|i now r|i|i rnd wr|i|i kk]; cbn in L |- *; auto.
  - destruct op; auto.
    + rewrite accepted_alone, filter_In. tauto.
    + intros H. apply L. eapply requested_alone; eauto.
  - cbn in C. destruct L as (L & B). split; auto. rewrite accepted_alone, filter_In. auto.
Qed.
Lemma served_in op evs e : In (HSv op evs) e -> In op (map fst (served e)).
Proof. intros H. apply in_map_iff. exists (op, evs). split; auto. unfold served. apply in_flat_map. exists (HSv op evs). split; auto. left; auto. Qed.
Lemma inner_in x op tr : In x tr -> In op (map fst (served (snd x))) -> In op (ops_of (inner tr)).
Proof. intros H I. unfold ops_of, inner. apply in_map_iff in I. destruct I as (y & <- & Y). apply in_map. apply in_flat_map. eauto. Qed.
