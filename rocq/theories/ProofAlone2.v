(** A connection and the process without the other ones, in lockstep: steps. *)
From Verif Require Import Base LibBase Bits Bcd Env EntTerm EntPlat Registry Message Codec Timer Session Multipart Server Host.
From Verif Require Import SpecGeo SpecEntity SpecMsg SpecStream SpecSession SpecMulti SpecTimer SpecServer SpecHost SpecAlone.
From Verif Require Import LibBcd LibMulti ProofTimer ProofTimer2 ProofServer ProofHost ProofAlone.

Section Alone.
Variable id : Z.
Variable P : bytes -> Prop.
Variable mg : bool.
Notation sim := (ProofAlone.sim id P mg).

Definition okop (o : sv_op) : Prop :=
  match o with ODeliver i _ m => collects mg m -> if i =? id then P (format_uint (h_icc (m_hdr m))) else ~ P (format_uint (h_icc (m_hdr m))) | _ => True end.
(** All effects belong to the connection or to none. *)
Definition pure (evs : list sv_event) : Prop := Forall (fun ev => match owner ev with Some i => i = id | None => True end) evs.
Lemma pure_own evs : Forall (fun ev => owner ev = Some id) evs -> pure evs.
Proof. apply Forall_impl. intros ev ->. reflexivity. Qed.

(** ** Ticks and broadcasts *)
Lemma reg_mem a b : sim a b -> mem (sv_reg a) id = mem (sv_reg b) id.
Proof.
  intros S. rewrite <- (s_reg _ _ _ _ _ S). unfold mem. induction (sv_reg a) as [|x l IH]; cbn; auto. destruct (x =? id) eqn:E; cbn; rewrite ?E; auto.
Qed.
Lemma reg_other a b i : sim a b -> i <> id -> mem (sv_reg b) i = false.
Proof.
  intros S H. rewrite <- (s_reg _ _ _ _ _ S). apply not_true_is_false. intros M. apply mem_in in M. apply filter_In in M. destruct M as (_ & M). lia.
Qed.
Lemma close_own a b : sim a b -> exists o' evs, close_session a id = (match o' with Some o => set_obj a id o | None => a end, evs) /\
  close_session b id = (match o' with Some o => set_obj b id o | None => b end, evs) /\ Forall (fun ev => owner ev = Some id) evs.
Proof.
  intros S. unfold close_session. rewrite <- (s_obj _ _ _ _ _ S). destruct (obj_get (sv_objs a) id) as [o|]; [|exists None, []; auto].
  destruct (so_closed o); [exists None, []; auto|]. exists (Some (shut o)), [SvShut id]. split; auto; split; auto; repeat constructor.
Qed.
Lemma close_sim a b : sim a b -> exists b' evs a', close_session a id = (a', evs) /\ close_session b id = (b', evs) /\ sim a' b' /\ Forall (fun ev => owner ev = Some id) evs.
Proof.
  intros S. destruct (close_own a b S) as ([o|] & evs & A & B & F); eexists _, _, _; split; try exact A; split; try exact B; split; auto. apply sim_own; auto.
Qed.
Lemma close_other a b i a' evs : i <> id -> sim a b -> close_session a i = (a', evs) -> sim a' b /\ Forall (fun ev => owner ev = Some i) evs.
Proof.
  intros H S. unfold close_session. destruct (obj_get (sv_objs a) i) as [o|]; [|intros E; injection E as <- <-; auto].
  destruct (so_closed o); intros E; injection E as <- <-; auto. split; [apply sim_other; auto|repeat constructor].
Qed.
Lemma timeouts_sim ks : forall a b a' evs, sim a b -> timeouts_loop a ks = (a', evs) ->
  exists b', timeouts_loop b (filter (fun i => i =? id) ks) = (b', filter (owned id) evs) /\ sim a' b' /\ pure (filter (owned id) evs).
Proof.
  induction ks as [|k ks IH]; intros a b a' evs S; cbn [timeouts_loop filter].
  - intros E. injection E as <- <-. exists b. split; auto. split; auto. constructor.
  - destruct (handle_read_timeout a k) as (a1, e1) eqn:H1. destruct (timeouts_loop a1 ks) as (a2, e2) eqn:L. intros E. injection E as <- <-.
    rewrite filter_app. destruct (Z.eqb_spec k id) as [->|N].
    + unfold handle_read_timeout, get_session in H1. cbn [timeouts_loop]. unfold handle_read_timeout, get_session. rewrite <- (reg_mem a b S).
      destruct (mem (sv_reg a) id).
      * destruct (close_sim a b S) as (b1 & es & a1' & A & B & S1 & F). rewrite A in H1. injection H1 as <- <-. rewrite B.
        destruct (IH _ _ _ _ S1 L) as (b2 & -> & S2 & F2). exists b2. rewrite (owned_all id es F). split; auto. split; auto. apply Forall_app. split; auto. apply pure_own; auto.
      * injection H1 as <- <-. destruct (IH _ _ _ _ S L) as (b2 & -> & S2 & F2). exists b2. auto.
    + assert (X : sim a1 b /\ Forall (fun ev => owner ev = Some k) e1).
      { unfold handle_read_timeout in H1. destruct (get_session a k); [eapply close_other; eauto|]. injection H1 as <- <-. auto. }
      destruct X as (S1 & F1). rewrite (owned_none k id e1 N F1). destruct (IH _ _ _ _ S1 L) as (b2 & E2 & S2 & F2). exists b2. auto.
Qed.
(** Where the other connections are not there, their keys do nothing. *)
Lemma timeouts_skip ks : forall b, (forall i, i <> id -> mem (sv_reg b) i = false) -> timeouts_loop b ks = timeouts_loop b (filter (fun i => i =? id) ks).
Proof.
  induction ks as [|k ks IH]; intros b R; cbn [timeouts_loop filter]; auto. destruct (Z.eqb_spec k id) as [->|N].
  - cbn [timeouts_loop]. destruct (handle_read_timeout b id) as (b1, e1) eqn:H. rewrite (IH b1); [reflexivity|]. intros i Hi.
    unfold handle_read_timeout, close_session in H. destruct (get_session b id); [|injection H as <- <-; auto]. destruct (obj_get (sv_objs b) id) as [o|]; [|injection H as <- <-; auto].
    destruct (so_closed o); injection H as <- <-; apply (R i Hi).
  - unfold handle_read_timeout at 1, get_session. rewrite (R k N). rewrite (IH b R). destruct (timeouts_loop _ _). reflexivity.
Qed.
Lemma nodup_pick (l : list Z) : NoDup l -> filter (fun i => i =? id) l = if mem l id then [id] else [].
Proof.
  induction 1 as [|x l H N IH]; auto. cbn. destruct (Z.eqb_spec x id) as [->|]; cbn; auto.
  rewrite IH. destruct (mem l id) eqn:M; auto. apply mem_in in M. contradiction.
Qed.
Lemma pick_same l1 l2 : NoDup l1 -> NoDup l2 -> (In id l1 <-> In id l2) -> filter (fun i => i =? id) l1 = filter (fun i => i =? id) l2.
Proof.
  intros N1 N2 E. rewrite !nodup_pick by auto. destruct (mem l1 id) eqn:A, (mem l2 id) eqn:B; auto.
  - apply mem_in, E, mem_in in A. congruence.
  - apply mem_in, E, mem_in in B. congruence.
Qed.
Lemma tick_sim a b now a' evs : sim a b -> sv_step a (OTick now) = Ok (a', evs) ->
  exists b' e2, sv_step b (OTick now) = Ok (b', e2) /\ sim a' b' /\ filter (owned id) evs = filter (owned id) e2 /\ pure e2.
Proof.
  intros S. destruct (s_time _ _ _ _ _ S) as (f & g & ka & T & V & K & T' & V' & K' & E). cbn [sv_step].
  destruct (tight_tick _ now f T V) as (t & ks & -> & T1 & V1 & K1 & F1). destruct (tight_tick _ now g T' V') as (u & ks' & -> & T2 & V2 & K2 & F2). cbn [bind].
  intros H. injection H as H.
  assert (S1 : sim (set_timer a t) (set_timer b u)).
  { destruct S. constructor; cbn; auto. eexists _, _, ka. repeat (split; [first [eassumption|congruence]|]). unfold without_expired, expired. rewrite E. reflexivity. }
  destruct (timeouts_sim _ _ _ _ _ S1 H) as (b' & B & S2 & F). exists b', (filter (owned id) evs). split; [|split; auto; split; auto].
  - f_equal. rewrite <- B. rewrite timeouts_skip; [|intros i Hi; eapply reg_other; eauto]. f_equal. destruct F1 as (N1 & I1 & _), F2 as (N2 & I2 & _). apply pick_same; auto. rewrite I1, I2. unfold expired. rewrite E. tauto.
  - symmetry. clear. induction evs as [|x l IH]; auto. cbn. destruct (owned id x) eqn:X; auto. cbn. rewrite X, IH. reflexivity.
Qed.
Lemma cast_sim ids e : forall a b a' evs, sim a b -> broadcast_loop a ids e = (a', evs) ->
  exists b', broadcast_loop b (filter (fun i => i =? id) ids) e = (b', filter (owned id) evs) /\ sim a' b' /\ pure (filter (owned id) evs).
Proof.
  induction ids as [|k ids IH]; intros a b a' evs S; cbn [broadcast_loop filter].
  - intros E. injection E as <- <-. exists b. split; auto. split; auto. constructor.
  - destruct (obj_get (sv_objs a) k) as [o|] eqn:G.
    + destruct (send_shape k o e) as (o' & es & Q & F). rewrite Q. destruct (broadcast_loop _ ids e) as (a2, e2) eqn:L. intros E. injection E as <- <-. rewrite filter_app.
      destruct (Z.eqb_spec k id) as [->|N].
      * cbn [broadcast_loop]. rewrite <- (s_obj _ _ _ _ _ S), G, Q. destruct (IH _ _ _ _ (sim_own _ _ _ _ _ o' S) L) as (b' & -> & S2 & F2). exists b'.
        rewrite (owned_all id es F). split; auto. split; auto. apply Forall_app. split; auto. apply pure_own; auto.
      * rewrite (owned_none k id es N F). apply (IH _ _ _ _ (sim_other _ _ _ _ _ k o' N S) L).
    + intros L. destruct (Z.eqb_spec k id) as [->|N]; [|apply (IH _ _ _ _ S L)]. cbn [broadcast_loop]. rewrite <- (s_obj _ _ _ _ _ S), G. apply (IH _ _ _ _ S L).
Qed.

(** ** Steps of the server *)
Lemma own_step a b op a' evs : sim a b -> sv_concerns id op = true -> okop op -> sv_step a op = Ok (a', evs) ->
  exists b' e2, sv_step b op = Ok (b', e2) /\ sim a' b' /\ filter (owned id) evs = filter (owned id) e2 /\ pure e2.
Proof.
  intros S C OK. assert (same : forall b' (r : res (server * list sv_event)), r = Ok (b', evs) -> sim a' b' -> Forall (fun ev => owner ev = Some id) evs ->
    exists b' e2, r = Ok (b', e2) /\ sim a' b' /\ filter (owned id) evs = filter (owned id) e2 /\ pure e2).
  { intros b' r -> S' F. exists b', evs. split; auto. split; auto. split; auto. apply pure_own; auto. }
  destruct op as [i now|i|i now m|i|i|now|e|i e|i tok e|x h|i q]; cbn [sv_concerns] in C; try (assert (i = id) as -> by lia); cbn [sv_step].
  - set (a1 := set_reg (set_obj a id _) _). set (b1 := set_reg (set_obj b id _) _).
    assert (S1 : sim a1 b1).
    { pose proof (sim_own _ _ _ _ _ (Sobj new_session false false false false) S) as []. constructor; cbn in *; auto. rewrite Z.eqb_refl. f_equal. auto. }
    destruct (time_own _ _ _ _ _ now S1) as (t & u & A & B & S2). cbn in A, B |- *. rewrite A, B. cbn [bind]. intros E. injection E as <- <-. eapply same; [reflexivity|exact S2|repeat constructor].
  - rewrite <- (s_obj _ _ _ _ _ S). destruct (obj_get (sv_objs a) id) as [o|]; intros E; injection E as <- <-; (eapply same; [reflexivity| |repeat constructor]); auto.
    destruct (so_closed o); auto. apply sim_own; auto.
  - rewrite <- (s_obj _ _ _ _ _ S). destruct (obj_get (sv_objs a) id) as [o|].
    + intros E. cbn in OK. rewrite Z.eqb_refl in OK. destruct (deliver_own _ _ _ _ _ _ _ _ _ _ S OK E) as (b' & B & S' & F). eapply same; eauto.
    + intros E; injection E as <- <-. eapply same; [reflexivity|auto|constructor].
  - destruct (close_sim a b S) as (b' & es & a1 & A & B & S' & F). rewrite A, B. intros E. injection E as <- <-. eapply same; eauto.
  - rewrite <- (s_obj _ _ _ _ _ S). destruct (obj_get (sv_objs a) id) as [o|]; [|intros E; injection E as <- <-; eapply same; [reflexivity|auto|constructor]].
    destruct (so_closed o && so_cb o && negb (so_ran o)); [|intros E; injection E as <- <-; eapply same; [reflexivity|auto|constructor]].
    unfold handle_close. set (a1 := set_reg (set_obj a id _) _). set (b1 := set_reg (set_obj b id _) _).
    assert (S1 : sim a1 b1).
    { pose proof (sim_own _ _ _ _ _ (Sobj (so_sess o) true (so_full o) true true) S) as S0. pose proof (s_reg _ _ _ _ _ S0) as RG. destruct S0. constructor; cbn in *; auto. rewrite <- RG. clear. induction (sv_reg a) as [|x l IH]; auto. cbn.
      destruct (x =? id) eqn:E; cbn; rewrite ?E; auto. }
    destruct (gone_own _ _ _ _ _ S1) as (t & u & A & B & S2). cbn in A, B |- *. rewrite A, B. cbn [bind]. intros E. injection E as <- <-. eapply same; [reflexivity|exact S2|repeat constructor].
  - apply tick_sim; auto.
  - destruct (broadcast_loop a (sv_reg a) e) as (a1, e1) eqn:L. destruct (cast_sim _ _ _ _ _ _ S L) as (b' & B & S' & F). rewrite (s_reg _ _ _ _ _ S) in B. rewrite B.
    intros E. injection E as <- <-. eexists _, _. split; [reflexivity|]. split; auto. split.
    + rewrite !filter_app. f_equal. clear. induction e1 as [|x l IH]; auto. cbn. destruct (owned id x) eqn:X; auto. cbn. rewrite X. f_equal. auto.
    + apply Forall_app. split; auto; repeat constructor.
  - rewrite <- (s_obj _ _ _ _ _ S). destruct (obj_get (sv_objs a) id) as [o|]; [|intros E; injection E as <- <-; eapply same; [reflexivity|auto|constructor]].
    destruct (send_shape id o e) as (o' & es & Q & F). rewrite !Q. intros E. injection E as <- <-. eapply same; [reflexivity|apply sim_own; auto|auto].
  - rewrite <- (s_obj _ _ _ _ _ S). destruct (obj_get (sv_objs a) id) as [o|]; [|intros E; injection E as <- <-; eapply same; [reflexivity|auto|constructor]].
    unfold sv_request. destruct (send_shape id o e) as (o' & es & Q & F). rewrite !Q.
    assert (Y : forall o2, exists b' e2, Ok (set_obj (set_obj b id o') id o2, es) = Ok (b', e2) /\ sim (set_obj (set_obj a id o') id o2) b' /\ filter (owned id) es = filter (owned id) e2 /\ pure e2).
    { intros o2. eexists _, es. split; [reflexivity|]. split; [apply sim_own, sim_own; auto|]. split; auto. apply pure_own; auto. }
    assert (Y' : exists b' e2, Ok (set_obj b id o', es) = Ok (b', e2) /\ sim (set_obj a id o') b' /\ filter (owned id) es = filter (owned id) e2 /\ pure e2).
    { eexists _, es. split; [reflexivity|]. split; [apply sim_own; auto|]. split; auto. apply pure_own; auto. }
    destruct es as [|[] [|]]; intros E; injection E as <- <-; auto.
  - intros E. injection E as <- <-. eapply same; [reflexivity| |constructor]. destruct S. constructor; cbn; auto. congruence.
  - rewrite <- (s_obj _ _ _ _ _ S). destruct (obj_get (sv_objs a) id) as [o|]; [|intros E; injection E as <- <-; eapply same; [reflexivity|auto|constructor]].
    intros E. injection E as <- <-. eapply same; [reflexivity|apply sim_own; auto|constructor].
Qed.
Lemma other_step a b op a' evs : sim a b -> sv_concerns id op = false -> okop op -> sv_step a op = Ok (a', evs) ->
  sim a' b /\ filter (owned id) evs = [].
Proof.
  intros S C OK. assert (fin : forall i, i <> id -> sim a' b -> Forall (fun ev => owner ev = Some i) evs -> sim a' b /\ filter (owned id) evs = []).
  { intros i N S' F. split; auto. eapply owned_none; eauto. }
  destruct op as [i now|i|i now m|i|i|now|e|i e|i tok e|x h|i q]; cbn [sv_concerns] in C; try discriminate; assert (N : i <> id) by lia; cbn [sv_step].
  - set (a1 := set_reg (set_obj a i _) _).
    assert (S1 : sim a1 b).
    { pose proof (sim_other _ _ _ _ _ i (Sobj new_session false false false false) N S) as []. constructor; cbn in *; auto. rewrite C. auto. }
    destruct (timer_update _ i now) as [t|e|] eqn:T; cbn [bind]; try discriminate. intros E. injection E as <- <-. apply (fin i); auto; try (repeat constructor; fail).
    apply (time_other _ _ _ _ _ _ _ _ N S1 T).
  - destruct (obj_get (sv_objs a) i) as [o|]; intros E; injection E as <- <-; split; auto. destruct (so_closed o); auto. apply sim_other; auto.
  - destruct (obj_get (sv_objs a) i) as [o|]; [|intros E; injection E as <- <-; auto]. intros E. cbn in OK. rewrite C in OK.
    destruct (deliver_other _ _ _ _ _ _ _ _ _ _ _ N S OK E) as (S' & F). apply (fin i); auto.
  - intros E. injection E as E. destruct (close_other a b i a' evs N S E) as (S' & F). apply (fin i); auto.
  - destruct (obj_get (sv_objs a) i) as [o|]; [|intros E; injection E as <- <-; auto].
    destruct (so_closed o && so_cb o && negb (so_ran o)); [|intros E; injection E as <- <-; auto].
    unfold handle_close. set (a1 := set_reg (set_obj a i _) _).
    assert (S1 : sim a1 b).
    { pose proof (sim_other _ _ _ _ _ i (Sobj (so_sess o) true (so_full o) true true) N S) as S0. pose proof (s_reg _ _ _ _ _ S0) as RG. destruct S0. constructor; cbn in *; auto. rewrite <- RG. clear - N. induction (sv_reg a) as [|x l IH]; auto. cbn.
      destruct (Z.eqb_spec x i); cbn.
      - subst x. destruct (Z.eqb_spec i id); [contradiction|auto].
      - destruct (x =? id); rewrite IH; auto. }
    destruct (timer_remove _ i) as [t|e|] eqn:T; cbn [bind]; try discriminate. intros E. injection E as <- <-. apply (fin i); auto; try (repeat constructor; fail).
    apply (gone_other _ _ _ _ _ _ _ N S1 T).
  - destruct (obj_get (sv_objs a) i) as [o|]; [|intros E; injection E as <- <-; auto]. destruct (send_shape i o e) as (o' & es & Q & F). rewrite Q. intros E. injection E as <- <-.
    apply (fin i); auto. apply sim_other; auto.
  - destruct (obj_get (sv_objs a) i) as [o|]; [|intros E; injection E as <- <-; auto]. unfold sv_request. destruct (send_shape i o e) as (o' & es & Q & F). rewrite Q.
    pose proof (sim_other _ _ _ _ _ i o' N S) as S1.
    destruct es as [|[] [|]]; intros E; injection E as <- <-; apply (fin i); auto; apply sim_other; auto.
  - destruct (obj_get (sv_objs a) i) as [o|]; intros E; injection E as <- <-; split; auto. apply sim_other; auto.
Qed.
End Alone.
