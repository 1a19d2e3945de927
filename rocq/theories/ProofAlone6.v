(** Connections do not disturb each other, goroutine by goroutine: the whole process. *)
From Verif Require Import Base LibBase Env EntTerm EntPlat Registry Message Codec Timer Session Multipart Server Host Overlap Fine World.
From Verif Require Import SpecGeo SpecEntity SpecMsg SpecStream SpecSession SpecMulti SpecTimer SpecServer SpecHost SpecOverlap SpecFine SpecWorld SpecAlone2.
From Verif Require Import ProofOverlap ProofHost ProofHost2 ProofFine ProofFine2 ProofFine6 ProofFine7 ProofFine8 ProofFine13 ProofWorld ProofWorld2 ProofWorld3 ProofWorld4 ProofWorld5 ProofWorld6 ProofWorld7 ProofAlone5.

Section Alone.
Variables (env : Env) (key : option Z) (merging : bool) (ka : Z) (id : Z).
Variables (O Q : packet -> Prop).
Hypothesis OKO : forall p, O p -> packet_ok p.
Hypothesis OKQ : forall p, Q p -> packet_ok p.
Hypothesis APART : forall p q, Q p -> O q -> same_upload (pk_up p) (pk_up q) = false.
Notation like := (like id).
Notation reached := (reached merging ka).

Record wlike (w w' : world) : Prop := {
  wl_fine : like (wo_fine w) (wo_fine w');
  wl_conn : conn_get (wo_conns w') id = conn_get (wo_conns w) id;
  wl_none : forall i, i <> id -> conn_get (wo_conns w') i = None;
  wl_up : wo_up w' id = wo_up w id;
  wl_fs : agree O (wo_fs w) (wo_fs w');
  wl_own : tinv O (wo_up w id);
  wl_others : forall i, i <> id -> tinv Q (wo_up w i) }.
Definition with_fine (w : world) (s : fine) : world := World s (wo_conns w) (wo_fs w) (wo_up w).

Lemma wl_set w w' c : wlike w w' -> wlike (set_wconn w id c) (set_wconn w' id c).
Proof.
  intros [A B C D E F G]. constructor; auto; cbn [set_wconn wo_conns].
  - rewrite !conn_get_set, Z.eqb_refl. reflexivity.
  - intros i N. rewrite conn_get_set. destruct (Z.eqb_spec id i); [congruence|auto].
Qed.
Lemma wl_set_other w w' i c : i <> id -> wlike w w' -> wlike (set_wconn w i c) w'.
Proof. intros N [A B C D E F G]. constructor; auto. cbn [set_wconn wo_conns]. rewrite conn_get_set. destruct (Z.eqb_spec i id); [congruence|auto]. Qed.
Lemma pc_same w w' : wlike w w' -> pc_of (wo_fine w') id = pc_of (wo_fine w) id.
Proof. intros L. unfold pc_of. rewrite (lk_obj _ _ _ (wl_fine _ _ L)). reflexivity. Qed.
Lemma closed_same w w' : wlike w w' -> is_closed (wo_fine w') id = is_closed (wo_fine w) id.
Proof. intros L. unfold is_closed. rewrite (lk_obj _ _ _ (wl_fine _ _ L)). reflexivity. Qed.

(** ** Channels *)
Lemma queue_like l l' e : conn_get l' id = conn_get l id -> (forall i, i <> id -> conn_get l' i = None) -> forall s s', like s s' ->
  exists s2 s2', frun s (queue_ops l e) = Ok (s2, []) /\ frun s' (queue_ops l' e) = Ok (s2', []) /\ like s2 s2'.
Proof.
  intros C N. induction e as [|x e IH]; intros s s' L; [exists s, s'; cbn; auto|].
  assert (S : forall k, queue_ops k (x :: e) = match x with XWire i _ (Some _) => queue_now k i | _ => [] end ++ queue_ops k e) by reflexivity. rewrite !S. clear S.
  destruct x; try (apply IH; exact L). destruct sent as [m|]; [|apply IH; exact L]. unfold queue_now. destruct (Z.eq_dec id0 id) as [->|M].
  - rewrite C. destruct (conn_get l id) as [c|]; [|apply IH; exact L]. cbn [app frun].
    assert (X : forall t b, fstep t (FQueue id b) = Ok (match fobj_get (fi_objs t) id with Some o => set_fobj t id (with_full o b) | None => t end, [])) by (intros t b; cbn [fstep]; destruct (fobj_get (fi_objs t) id); reflexivity).
    rewrite !X. cbn [bind]. rewrite (lk_obj _ _ _ L). destruct (fobj_get (fi_objs s) id) as [o|].
    + destruct (IH _ _ (like_set id _ _ (with_full o (length (cn_queue c) =? queue_size)%nat) L)) as (s2 & s2' & A & B & D). rewrite A, B. cbn [bind app]. eauto.
    + destruct (IH _ _ L) as (s2 & s2' & A & B & D). rewrite A, B. cbn [bind app]. eauto.
  - rewrite (N id0 M). destruct (conn_get l id0) as [c|]; [|apply IH; exact L]. cbn [app frun fstep]. destruct (fobj_get (fi_objs s) id0) as [o|]; cbn [bind].
    + match goal with |- context [set_fobj s id0 ?o'] => destruct (IH _ _ (like_set_other id _ _ id0 o' M L)) as (s2 & s2' & A & B & D) end. rewrite A. cbn [bind app]. exists s2, s2'. auto.
    + destruct (IH _ _ L) as (s2 & s2' & A & B & D). rewrite A. cbn [bind app]. eauto.
Qed.
Lemma queue_other l e s' : other_events id e -> forall s, like s s' -> exists s2, frun s (queue_ops l e) = Ok (s2, []) /\ like s2 s'.
Proof.
  induction 1 as [|x e (i & W & N) H IH]; intros s L; [exists s; cbn; auto|].
  assert (S : queue_ops l (x :: e) = match x with XWire i _ (Some _) => queue_now l i | _ => [] end ++ queue_ops l e) by reflexivity. rewrite S. clear S.
  destruct x; try (apply IH; exact L). destruct sent as [m|]; [|apply IH; exact L]. cbn [whose] in W. injection W as ->. unfold queue_now. destruct (conn_get l i) as [c|]; [|apply IH; exact L].
  cbn [app frun fstep]. destruct (fobj_get (fi_objs s) i) as [o|]; cbn [bind].
  - match goal with |- context [set_fobj s i ?o'] => destruct (IH _ (like_set_other id _ _ i o' N L)) as (s2 & A & D) end. rewrite A. cbn [bind app]. eauto.
  - destruct (IH _ L) as (s2 & A & D). rewrite A. cbn [bind app]. eauto.
Qed.
Lemma put_other l e i : Forall (fun x => exists j, whose x = Some j /\ j <> i) e -> conn_get (fold_left put_in e l) i = conn_get l i.
Proof.
  intros H. rewrite put_get. assert (X : handed i e = []).
  { induction H as [|x e (j & W & N) H IH]; [reflexivity|]. change (handed i (x :: e)) with (match x with XWire k _ (Some m) => if k =? i then [m] else [] | _ => [] end ++ handed i e). rewrite IH, app_nil_r.
    destruct x; try reflexivity. destruct sent; [|reflexivity]. cbn [whose] in W. injection W as ->. destruct (Z.eqb_spec j i); [congruence|reflexivity]. }
  destruct (conn_get l i); [|reflexivity]. cbn. rewrite fuller_nil by exact X. reflexivity.
Qed.

(** ** Steps of the server *)
Lemma act_same w w' evs' op w1 ev : wlike w w' -> reached evs' (wo_fine w') -> good_op op -> fstep_of op = Some id -> (forall b, op <> FCastNext b id) -> act w op = Ok (w1, ev) ->
  exists w1', act w' op = Ok (w1', ev) /\ wlike w1 w1'.
Proof.
  intros L R G F NC A. destruct L as [L1 L2 L3 L4 L5 L6 L7]. unfold act in *. destruct (fstep (wo_fine w) op) as [[s1 e]| |] eqn:E; try discriminate. cbn [bind] in A. destruct (reached_step _ _ _ _ _ R G) as (s1' & e' & E').
  destruct (same_step id _ _ _ _ _ _ _ L1 F NC E E') as (-> & L). rewrite E'. cbn [bind]. fold (queue_ops (fold_left put_in e (wo_conns w)) e) in A. fold (queue_ops (fold_left put_in e (wo_conns w')) e).
  assert (C1 : conn_get (fold_left put_in e (wo_conns w')) id = conn_get (fold_left put_in e (wo_conns w)) id) by (rewrite !put_get, L2; reflexivity).
  assert (C2 : forall i, i <> id -> conn_get (fold_left put_in e (wo_conns w')) i = None) by (intros i N; rewrite put_get, L3 by exact N; reflexivity).
  destruct (queue_like _ _ e C1 C2 _ _ L) as (s2 & s2' & Q1 & Q2 & L'). rewrite Q1 in A. rewrite Q2. cbn [bind] in *. injection A as <- <-. eexists. split; [reflexivity|]. constructor; auto.
Qed.
Lemma act_cast w w' b w1 ev : wlike w w' -> act w (FCastNext b id) = Ok (w1, ev) ->
  (wlike w1 w' /\ ev = []) \/ exists w1', act w' (FCastNext b id) = Ok (w1', ev) /\ wlike w1 w1'.
Proof.
  intros L A. pose proof L as [L1 L2 L3 L4 L5 L6 L7]. unfold act in *. destruct (fstep (wo_fine w) (FCastNext b id)) as [[s1 e]| |] eqn:E; try discriminate. cbn [bind] in A.
  destruct (same_cast id _ _ _ _ _ L1 E) as [(-> & ->)|(s1' & E' & L')].
  - cbn [flat_map frun bind app map fold_left] in A. injection A as <- <-. left. split; [|reflexivity]. constructor; auto.
  - right. rewrite E'. cbn [bind]. fold (queue_ops (fold_left put_in e (wo_conns w)) e) in A. fold (queue_ops (fold_left put_in e (wo_conns w')) e).
    assert (C1 : conn_get (fold_left put_in e (wo_conns w')) id = conn_get (fold_left put_in e (wo_conns w)) id) by (rewrite !put_get, L2; reflexivity).
    assert (C2 : forall i, i <> id -> conn_get (fold_left put_in e (wo_conns w')) i = None) by (intros i N; rewrite put_get, L3 by exact N; reflexivity).
    destruct (queue_like _ _ e C1 C2 _ _ L') as (s2 & s2' & Q1 & Q2 & L''). rewrite Q1 in A. rewrite Q2. cbn [bind] in *. injection A as <- <-. eexists. split; [reflexivity|]. constructor; auto.
Qed.
Lemma life_fine e : life id (map WFine e) = map WFine (flat_map (felt id) e).
Proof. induction e as [|x e IH]; [reflexivity|]. cbn [map life flat_map felt_by]. fold (life id (map WFine e)). rewrite IH, map_app. reflexivity. Qed.
Lemma felt_others e : other_events id e -> flat_map (felt id) e = [].
Proof.
  induction 1 as [|x e (i & W & N) H IH]; [reflexivity|]. cbn [flat_map]. rewrite IH, app_nil_r. assert (X : (i =? id) = false) by lia. destruct x; cbn [whose] in W; try discriminate W; injection W as ->; cbn [felt whose]; rewrite X; reflexivity.
Qed.
Lemma act_other w w' evs op i w1 ev : wlike w w' -> reached evs (wo_fine w) -> fstep_of op = Some i -> i <> id -> act w op = Ok (w1, ev) ->
  life id ev = [] /\ (wlike w1 w' \/ (takes_name op = true /\ wlike w1 (with_fine w' (count_tok (wo_fine w'))))).
Proof.
  intros L R F N A. pose proof L as [L1 L2 L3 L4 L5 L6 L7]. unfold act in *. destruct (fstep (wo_fine w) op) as [[s1 e]| |] eqn:E; try discriminate. cbn [bind] in A.
  destruct (others_step id _ _ _ _ _ _ L1 (whole_names id _ _ _ _ (reached_whole _ _ _ _ R)) F N E) as (OE & K). fold (queue_ops (fold_left put_in e (wo_conns w)) e) in A.
  assert (C : conn_get (fold_left put_in e (wo_conns w)) id = conn_get (wo_conns w) id) by (apply put_other; exact OE).
  destruct K as [L'|(T & L')]; destruct (queue_other (fold_left put_in e (wo_conns w)) e _ OE _ L') as (s2 & Q1 & L''); rewrite Q1 in A; cbn [bind] in A; injection A as <- <-; rewrite app_nil_r; (split; [rewrite life_fine, felt_others by exact OE; reflexivity|]).
  - left. constructor; auto. cbn [wo_conns]. congruence.
  - right. split; [exact T|]. constructor; auto. cbn [wo_conns with_fine]. congruence.
Qed.
Lemma server_quiet s op s1 e : fstep_of op = None -> fstep s op = Ok (s1, e) -> Forall (fun x => match x with XWire _ _ _ => False | _ => True end) e.
Proof.
  intros F E. destruct op; try discriminate F; cbn [fstep] in E.
  - injection E as <- <-. repeat constructor.
  - destruct (cast_get (fi_casts s) b) as [[en [|] [cur|] n]|]; injection E as <- <-; repeat constructor.
  - destruct (fi_tick s) as [[|k ks]|k ks]; try (injection E as <- <-; repeat constructor; fail). destruct (tstep _ _); try discriminate. cbn [bind] in E. injection E as <- <-. repeat constructor.
  - destruct (fi_tick s) as [[|k ks]|k ks]; injection E as <- <-; repeat constructor.
  - destruct (fi_tick s) as [[|k ks]|k ks]; try (injection E as <- <-; repeat constructor; fail). destruct (fobj_get (fi_objs s) k) as [o|]; [|injection E as <- <-; constructor]. unfold fclose in E. destruct (fo_closed o); injection E as <- <-; repeat constructor.
  - injection E as <- <-. repeat constructor.
Qed.
Lemma act_quiet w op s1 e : fstep (wo_fine w) op = Ok (s1, e) -> Forall (fun x => match x with XWire _ _ _ => False | _ => True end) e -> act w op = Ok (with_fine w s1, map WFine e).
Proof.
  intros E H. unfold act. rewrite E. cbn [bind]. assert (X : fold_left put_in e (wo_conns w) = wo_conns w /\ forall l, flat_map (fun ev => match ev with XWire j _ (Some _) => queue_now l j | _ => [] end) e = []).
  { clear E. generalize (wo_conns w). induction H as [|x e N H IH]; intros l; [auto|]. cbn [fold_left flat_map]. destruct x; try contradiction; cbn [put_in app]; apply IH. }
  destruct X as (-> & X). rewrite X. cbn [frun bind]. rewrite app_nil_r. reflexivity.
Qed.
Lemma act_server w w' evs evs' op w1 ev : wlike w w' -> reached evs (wo_fine w) -> reached evs' (wo_fine w') -> flat_map (felt id) evs' = flat_map (felt id) evs -> fstep_of op = None -> act w op = Ok (w1, ev) ->
  (wlike w1 w' /\ life id ev = []) \/ exists w1' ev', act w' op = Ok (w1', ev') /\ wlike w1 w1' /\ life id ev' = life id ev.
Proof.
  intros L R R' FE F A. pose proof L as [L1 L2 L3 L4 L5 L6 L7]. destruct (fstep (wo_fine w) op) as [[s1 e]| |] eqn:E; try (unfold act in A; rewrite E in A; discriminate).
  rewrite (act_quiet _ _ _ _ E (server_quiet _ _ _ _ F E)) in A. injection A as <- <-.
  destruct (server_step id _ _ _ _ _ _ _ _ _ L1 R R' FE F E) as [(L' & X)|(s1' & e' & E' & L' & X)].
  - left. split; [constructor; auto|]. rewrite life_fine, X. reflexivity.
  - right. rewrite (act_quiet _ _ _ _ E' (server_quiet _ _ _ _ F E')). eexists _, _. split; [reflexivity|]. split; [constructor; auto|]. rewrite !life_fine, X. reflexivity.
Qed.

(** ** Files *)
Lemma wl_up_same w w' f t f' : wlike w w' -> agree O f f' -> tinv O t -> wlike (set_up w id f t) (set_up w' id f' t).
Proof.
  intros [L1 L2 L3 L4 L5 L6 L7] A T. constructor; auto; cbn [set_up wo_up]; rewrite ?Z.eqb_refl; auto. intros i N. destruct (Z.eqb_spec i id); [congruence|auto].
Qed.
Lemma wl_up_other w w' i f t : i <> id -> wlike w w' -> agree O f (wo_fs w') -> tinv Q t -> wlike (set_up w i f t) w'.
Proof.
  intros N [L1 L2 L3 L4 L5 L6 L7] A T. constructor; auto; cbn [set_up wo_up]; destruct (Z.eqb_spec id i); try congruence; auto; intros j M; destruct (Z.eqb_spec j i); auto.
Qed.
Lemma begin_same w w' : wlike w w' -> (forall m p, pc_of (wo_fine w) id = Some (GStore m) -> packet_of m = Some p -> O p) -> wlike (begin_upload w id) (begin_upload w' id).
Proof.
  intros L H. unfold begin_upload. rewrite (pc_same _ _ L). destruct (pc_of (wo_fine w) id) as [[]|]; auto. destruct (packet_of m) as [p|] eqn:P; auto.
  rewrite (wl_up _ _ L). apply wl_up_same; [exact L|apply L|]. split; cbn [th_todo th_at]; [constructor|]. eapply H; eauto.
Qed.
Lemma begin_other w w' i : i <> id -> wlike w w' -> (forall m p, pc_of (wo_fine w) i = Some (GStore m) -> packet_of m = Some p -> Q p) -> wlike (begin_upload w i) w'.
Proof.
  intros N L H. unfold begin_upload. destruct (pc_of (wo_fine w) i) as [[]|]; auto. destruct (packet_of m) as [p|] eqn:P; auto.
  apply wl_up_other; auto; [apply L|]. split; cbn [th_todo th_at]; [constructor|]. eapply H; eauto.
Qed.
Lemma step_same w w' : wlike w w' -> snd (thread_step (wo_fs w') (wo_up w' id)) = snd (thread_step (wo_fs w) (wo_up w id)) /\
  wlike (set_up w id (fst (thread_step (wo_fs w) (wo_up w id))) (snd (thread_step (wo_fs w) (wo_up w id)))) (set_up w' id (fst (thread_step (wo_fs w') (wo_up w' id))) (snd (thread_step (wo_fs w) (wo_up w id)))).
Proof.
  intros L. rewrite (wl_up _ _ L). destruct (own_step O OKO _ _ _ (wl_fs _ _ L) (wl_own _ _ L)) as (A & B & C). rewrite A. split; [reflexivity|]. rewrite <- A at 1 2. apply wl_up_same; auto.
Qed.
Lemma step_other w w' i : i <> id -> wlike w w' -> wlike (set_up w i (fst (thread_step (wo_fs w) (wo_up w i))) (snd (thread_step (wo_fs w) (wo_up w i)))) w'.
Proof.
  intros N L. pose proof (wl_others _ _ L i N) as T. destruct (own_step Q OKQ _ _ _ (agree_refl Q (wo_fs w)) T) as (_ & _ & C).
  destruct (other_step Q O (wo_fs w) (wo_up w i) OKQ OKO APART T) as (P1 & P2). apply wl_up_other; auto. destruct (wl_fs _ _ L) as (A1 & A2). split; [congruence|]. intros m U. rewrite P2 by exact U. apply A2, U.
Qed.
(** The packet that a received message begins to store *)
Lemma recv_packet w i m w1 ev : fi_auto (wo_fine w) = merging -> received m -> pc_of (wo_fine w) i = Some GRecv -> act w (FRecv i m) = Ok (w1, ev) ->
  forall m0 p, pc_of (wo_fine w1) i = Some (GStore m0) -> packet_of m0 = Some p -> In p (packets merging i (inside ev)).
Proof.
  intros AU RM PC A m0 p P1 PK. destruct (act_eq _ _ _ _ A) as (s1 & e & E & -> & _ & _ & F3). rewrite F3 in P1. cbn [fstep] in E. unfold pc_of in PC. destruct (fobj_get (fi_objs (wo_fine w)) i) as [o|] eqn:Go; [|discriminate]. injection PC as PC.
  rewrite PC, AU in E. destruct (on_message merging m) as [g| |] eqn:OM; try discriminate. cbn [bind] in E. injection E as <- <-. unfold pc_of in P1. rewrite set_fobj_get, Z.eqb_refl in P1. cbn [at_pc fo_pc] in P1. injection P1 as ->.
  pose proof (part_cases merging m _ RM OM) as X. rewrite inside_fine. unfold packets. cbn [got_by flat_map]. rewrite Z.eqb_refl. cbn [app flat_map]. destruct (part_of merging m) as [[[mf sq] data]|]; [|discriminate X].
  destruct X as (X & Y). injection X as ->. rewrite Y in PK. injection PK as <-. left. reflexivity.
Qed.
Lemma recv_event w i m w1 ev : pc_of (wo_fine w) i = Some GRecv -> act w (FRecv i m) = Ok (w1, ev) -> In (XRecv i m) (inside ev).
Proof.
  intros PC A. destruct (act_eq _ _ _ _ A) as (s1 & e & E & -> & _). cbn [fstep] in E. unfold pc_of in PC. destruct (fobj_get (fi_objs (wo_fine w)) i) as [o|] eqn:Go; [|discriminate]. injection PC as PC. rewrite PC in E.
  destruct (on_message _ m) as [g| |]; try discriminate. cbn [bind] in E. injection E as <- <-. rewrite inside_fine. left. reflexivity.
Qed.

(** ** A step of a connection, not of the server *)
Definition plain_other (op : wop) : Prop := match op with WDo _ => False | _ => True end.
Lemma wstep_same w w' evs evs' op w1 e : wlike w w' -> winv env key merging ka evs w -> winv env key merging ka (evs ++ e) w1 -> winv env key merging ka evs' w' ->
  (forall p, In p (packets merging id (inside (evs ++ e))) -> O p) -> plain_other op -> step_of op = Some id -> wstep env key w op = Ok (w1, e) ->
  exists w1', wstep env key w' op = Ok (w1', e) /\ wlike w1 w1'.
Proof.
  intros L V V1 V' IN PO SO E.
  assert (AU : fi_auto (wo_fine w) = merging) by (eapply winv_auto; exact V).
  assert (STILL : Ok (w, []) = Ok (w1, e) -> exists w1', @Ok (world * list wevent) (w', []) = Ok (w1', e) /\ wlike w1 w1') by (intros X; injection X as <- <-; exists w'; auto).
  assert (ACT : forall a a' o x ev, wlike a a' -> wo_fine a' = wo_fine w' -> good_op o -> fstep_of o = Some id -> (forall b, o <> FCastNext b id) -> act a o = Ok (x, ev) -> exists x', act a' o = Ok (x', ev) /\ wlike x x').
  { intros a a' o x ev LA WF G F NC A. eapply act_same; eauto. rewrite WF. exact (wi_run _ _ _ _ _ _ V'). }
  destruct op as [o|i d|i r|i|i|i rnd wr|i|i k]; cbn [plain_other] in PO; try contradiction; cbn [step_of] in SO; injection SO as ->; cbn [wstep] in *.
  - rewrite (wl_conn _ _ L). destruct (conn_get (wo_conns w) id) as [c|]; auto. injection E as <- <-. eexists. split; [reflexivity|]. apply wl_set, L.
  - assert (GOT : forall c x, pc_of (wo_fine w) id = Some GRecv -> got w id c x = Ok (w1, e) -> exists w1', got w' id c x = Ok (w1', e) /\ wlike w1 w1').
    { intros c [sc b] PC G. unfold got in *. destruct sc as [m|err| |]; [| |injection G as <- <-; eexists; split; [reflexivity|apply wl_set, L]|discriminate].
      - destruct (act _ (FRecv id m)) as [[w2 ev]| |] eqn:A; try discriminate. cbn [bind] in G. injection G as <- <-.
        assert (RM : received m). { eapply (recv_received merging ka (inside (evs ++ ev)) _ id m (wi_run _ _ _ _ _ _ V1)). rewrite inside_app. apply in_app_iff. right. eapply (recv_event (set_wconn w id _)); [exact PC|exact A]. }
        destruct (ACT _ (set_wconn w' id (with_recv c (cn_in c) b AtStart)) (FRecv id m) w2 ev (wl_set _ _ _ L) eq_refl RM eq_refl ltac:(discriminate) A) as (w2' & A' & L2). rewrite A'. cbn [bind]. eexists. split; [reflexivity|].
        apply begin_same; [exact L2|]. intros m0 p P1 PK. apply IN. rewrite inside_app, packets_app. apply in_app_iff. right. eapply (recv_packet (set_wconn w id _)); [exact AU|exact RM|exact PC|exact A|exact P1|exact PK].
      - eapply ACT; [apply wl_set, L| | | | |exact G]; try reflexivity. discriminate. }
    unfold receive in *. rewrite (pc_same _ _ L), (wl_conn _ _ L). destruct (pc_of (wo_fine w) id) as [p|] eqn:PC; auto. destruct p; auto. destruct (conn_get (wo_conns w) id) as [c|]; auto. destruct (cn_at c); auto.
    destruct r as [k|er].
    + destruct (firstn _ (cn_in c)) as [|d0 d].
      * rewrite (closed_same _ _ L). destruct (is_closed (wo_fine w) id); auto. eapply ACT; [apply wl_set, L| | | | |exact E]; try reflexivity. discriminate.
      * cbv zeta in *. destruct (65535 <? _); auto. eapply ACT; [apply wl_set, L| | | | |exact E]; try reflexivity. discriminate.
    + destruct (act _ (FFail id)) as [[w2 ev]| |] eqn:A; try discriminate. cbn [bind] in E. injection E as <- <-.
      destruct (ACT _ (set_wconn w' id (with_recv c (cn_in c) (cn_buf c) Left)) (FFail id) w2 ev (wl_set _ _ _ L) eq_refl I eq_refl ltac:(discriminate) A) as (w2' & A' & L2). rewrite A'. cbn [bind]. eauto.
  - unfold access in *. rewrite (pc_same _ _ L). destruct (step_same _ _ L) as (S1 & S2). rewrite (wl_up _ _ L) in *.
    destruct (thread_step (wo_fs w) (wo_up w id)) as [f t] eqn:TS. destruct (thread_step (wo_fs w') (wo_up w id)) as [f' t'] eqn:TS'. cbn [fst snd] in *. subst t'.
    destruct (pc_of (wo_fine w) id) as [[]|] eqn:PC; auto.
    + destruct (th_at (wo_up w id)) eqn:TA; [refine (ACT _ _ _ _ _ L eq_refl _ _ _ E); [exact Logic.I|reflexivity|discriminate]|..];
      (destruct (th_at t) eqn:TB; try (injection E as <- <-; eexists; split; [reflexivity|exact S2]); (refine (ACT _ _ _ _ _ S2 eq_refl _ _ _ E); [exact Logic.I|reflexivity|discriminate])).
    + destruct (th_at (wo_up w id)) eqn:TA; [refine (ACT _ _ _ _ _ L eq_refl _ _ _ E); [exact Logic.I|reflexivity|discriminate]|..];
      (destruct (th_at t) eqn:TB; try (injection E as <- <-; eexists; split; [reflexivity|exact S2]); (refine (ACT _ _ _ _ _ S2 eq_refl _ _ _ E); [exact Logic.I|reflexivity|discriminate])).
  - unfold wtake in *. rewrite (wl_conn _ _ L). destruct (conn_get (wo_conns w) id) as [c|]; auto. destruct (cn_sending c); auto. destruct (cn_flight c); auto. destruct (cn_queue c) as [|m q]; auto. cbv zeta in *.
    unfold queue_now in *. cbn [set_wconn wo_conns] in *. rewrite conn_get_set, Z.eqb_refl in *. cbn [cn_queue with_send frun fstep] in *. rewrite (lk_obj _ _ _ (wl_fine _ _ L)).
    pose proof (wl_set _ _ (with_send c q (Some m) true) L) as [L1 L2 L3 L4 L5 L6 L7]. destruct (fobj_get (fi_objs (wo_fine w)) id) as [o|] eqn:Go; cbn [bind app map] in *; injection E as <- <-; (eexists; split; [reflexivity|]); constructor; auto.
    cbn [wo_fine]. apply like_set. exact L1.
  - unfold wwrite in *. rewrite (wl_conn _ _ L). destruct (conn_get (wo_conns w) id) as [c|]; auto. destruct (cn_flight c) as [m|]; auto. destruct (codec_send _ _ _ _ _); try discriminate.
    + injection E as <- <-. eexists. split; [reflexivity|]. apply wl_set, L.
    + destruct (act _ (FShut id)) as [[w2 ev]| |] eqn:A; try discriminate. cbn [bind] in E. injection E as <- <-.
      destruct (ACT _ (set_wconn w' id (with_send c (cn_queue c) None false)) (FShut id) w2 ev (wl_set _ _ _ L) eq_refl I eq_refl ltac:(discriminate) A) as (w2' & A' & L2). rewrite A'. cbn [bind]. eauto.
  - injection E as <- <-. eexists. split; [reflexivity|]. unfold wquit. rewrite (wl_conn _ _ L), (closed_same _ _ L). destruct (conn_get (wo_conns w) id) as [c|]; auto. destruct (cn_flight c); auto. destruct (is_closed _ _); auto. apply wl_set, L.
  - rewrite (wl_conn _ _ L). destruct (conn_get (wo_conns w) id) as [c|]; auto. injection E as <- <-. eexists. split; [reflexivity|]. apply wl_set, L.
Qed.

Lemma wstep_other w w' evs op i w1 e : wlike w w' -> winv env key merging ka evs w -> winv env key merging ka (evs ++ e) w1 ->
  (forall p, In p (packets merging i (inside (evs ++ e))) -> Q p) -> plain_other op -> step_of op = Some i -> i <> id -> wstep env key w op = Ok (w1, e) ->
  wlike w1 w' /\ life id e = [].
Proof.
  intros L V V1 IN PO SO N E.
  assert (AU : fi_auto (wo_fine w) = merging) by (eapply winv_auto; exact V).
  assert (STILL : Ok (w, []) = Ok (w1, e) -> wlike w1 w' /\ life id e = []) by (intros X; injection X as <- <-; auto).
  assert (ACT : forall a o x ev, wlike a w' -> wo_fine a = wo_fine w -> fstep_of o = Some i -> takes_name o = false -> act a o = Ok (x, ev) -> wlike x w' /\ life id ev = []).
  { intros a o x ev LA WF F T A. destruct (act_other _ _ (inside evs) _ _ _ _ LA ltac:(rewrite WF; exact (wi_run _ _ _ _ _ _ V)) F N A) as (X & [Y|(Y & _)]); [auto|congruence]. }
  assert (B : (i =? id) = false) by lia.
  destruct op as [o|j d|j r|j|j|j rnd wr|j|j k]; cbn [plain_other] in PO; try contradiction; cbn [step_of] in SO; injection SO as ->; cbn [wstep] in *.
  - destruct (conn_get (wo_conns w) i) as [c|]; auto. injection E as <- <-. split; [apply wl_set_other; auto|]. cbn. rewrite B. reflexivity.
  - assert (GOT : forall c x, pc_of (wo_fine w) i = Some GRecv -> got w i c x = Ok (w1, e) -> wlike w1 w' /\ life id e = []).
    { intros c [sc b] PC G. unfold got in *. destruct sc as [m|err| |]; [| |injection G as <- <-; split; [apply wl_set_other; auto|reflexivity]|discriminate].
      - destruct (act _ (FRecv i m)) as [[w2 ev]| |] eqn:A; try discriminate. cbn [bind] in G. injection G as <- <-.
        assert (RM : received m). { eapply (recv_received merging ka (inside (evs ++ ev)) _ i m (wi_run _ _ _ _ _ _ V1)). rewrite inside_app. apply in_app_iff. right. eapply (recv_event (set_wconn w i _)); [exact PC|exact A]. }
        destruct (ACT _ (FRecv i m) _ _ (wl_set_other _ _ i _ N L) eq_refl eq_refl eq_refl A) as (L2 & X). split; [|exact X].
        apply begin_other; auto. intros m0 p P1 PK. apply IN. rewrite inside_app, packets_app. apply in_app_iff. right. eapply (recv_packet (set_wconn w i _)); [exact AU|exact RM|exact PC|exact A|exact P1|exact PK].
      - refine (ACT _ _ _ _ (wl_set_other _ _ i _ N L) eq_refl _ _ G); reflexivity. }
    unfold receive in *. destruct (pc_of (wo_fine w) i) as [p|] eqn:PC; auto. destruct p; auto. destruct (conn_get (wo_conns w) i) as [c|]; auto. destruct (cn_at c); auto; [eapply GOT; eauto|].
    destruct r as [k|er].
    + destruct (firstn _ (cn_in c)) as [|d0 d].
      * destruct (is_closed (wo_fine w) i); auto. refine (ACT _ _ _ _ (wl_set_other _ _ i _ N L) eq_refl _ _ E); reflexivity.
      * cbv zeta in *. destruct (65535 <? _); [|eapply GOT; eauto]. refine (ACT _ _ _ _ (wl_set_other _ _ i _ N L) eq_refl _ _ E); reflexivity.
    + destruct (act _ (FFail i)) as [[w2 ev]| |] eqn:A; try discriminate. cbn [bind] in E. injection E as <- <-.
      destruct (ACT _ (FFail i) _ _ (wl_set_other _ _ i _ N L) eq_refl eq_refl eq_refl A) as (L2 & X). split; [exact L2|]. cbn [life flat_map felt_by]. rewrite B. exact X.
  - unfold access in *. pose proof (step_other _ _ i N L) as S2. destruct (thread_step (wo_fs w) (wo_up w i)) as [f t] eqn:TS. cbn [fst snd] in *.
    destruct (pc_of (wo_fine w) i) as [[]|] eqn:PC; auto.
    + destruct (th_at (wo_up w i)) eqn:TA; [refine (ACT _ _ _ _ L eq_refl _ _ E); reflexivity|..];
      (destruct (th_at t) eqn:TB; try (injection E as <- <-; split; [exact S2|reflexivity]); (refine (ACT _ _ _ _ S2 eq_refl _ _ E); reflexivity)).
    + destruct (th_at (wo_up w i)) eqn:TA; [refine (ACT _ _ _ _ L eq_refl _ _ E); reflexivity|..];
      (destruct (th_at t) eqn:TB; try (injection E as <- <-; split; [exact S2|reflexivity]); (refine (ACT _ _ _ _ S2 eq_refl _ _ E); reflexivity)).
  - unfold wtake in *. destruct (conn_get (wo_conns w) i) as [c|]; auto. destruct (cn_sending c); auto. destruct (cn_flight c); auto. destruct (cn_queue c) as [|m q]; auto. cbv zeta in *.
    unfold queue_now in *. cbn [set_wconn wo_conns] in *. rewrite conn_get_set, Z.eqb_refl in *. cbn [cn_queue with_send frun fstep] in *.
    pose proof (wl_set_other _ _ i (with_send c q (Some m) true) N L) as [L1 L2 L3 L4 L5 L6 L7]. destruct (fobj_get (fi_objs (wo_fine w)) i) as [o|] eqn:Go; cbn [bind app map] in *; injection E as <- <-; (split; [|reflexivity]); constructor; auto.
    cbn [wo_fine]. apply like_set_other; auto.
  - unfold wwrite in *. destruct (conn_get (wo_conns w) i) as [c|]; auto. destruct (cn_flight c) as [m|]; auto. destruct (codec_send _ _ _ _ _); try discriminate.
    + injection E as <- <-. split; [apply wl_set_other; auto|]. cbn. rewrite B. reflexivity.
    + destruct (act _ (FShut i)) as [[w2 ev]| |] eqn:A; try discriminate. cbn [bind] in E. injection E as <- <-.
      destruct (ACT _ (FShut i) _ _ (wl_set_other _ _ i _ N L) eq_refl eq_refl eq_refl A) as (L2 & X). split; [exact L2|]. cbn [life flat_map felt_by]. rewrite B. exact X.
  - injection E as <- <-. split; [|reflexivity]. unfold wquit. destruct (conn_get (wo_conns w) i) as [c|]; auto. destruct (cn_flight c); auto. destruct (is_closed _ _); auto. apply wl_set_other; auto.
  - destruct (conn_get (wo_conns w) i) as [c|]; auto. injection E as <- <-. split; [apply wl_set_other; auto|reflexivity].
Qed.

(** ** Any step *)
Lemma felt_inside evs evs' : life id evs' = life id evs -> flat_map (felt id) (inside evs') = flat_map (felt id) (inside evs).
Proof.
  assert (X : forall l, flat_map (felt id) (inside l) = inside (life id l)).
  { induction l as [|x l IH]; [reflexivity|]. change (x :: l) with ([x] ++ l). unfold life. rewrite flat_map_app. fold (life id l). rewrite !inside_app, flat_map_app, IH. f_equal. cbn [flat_map]. rewrite app_nil_r. destruct x; cbn [felt_by inside flat_map app].
    - rewrite app_nil_r. fold (inside (map WFine (felt id ev))). rewrite inside_fine. reflexivity.
    - destruct (_ =? _); reflexivity.
    - destruct (_ =? _); reflexivity.
    - destruct (_ =? _); reflexivity.
    - destruct (_ =? _); reflexivity. }
  intros E. rewrite !X, E. reflexivity.
Qed.
Lemma fresh_casts w evs b c : winv env key merging ka evs w -> cast_get (fi_casts (wo_fine w)) b = Some c -> b < fi_toks (wo_fine w).
Proof. intros V. exact (cs_fresh _ _ (ws_casting _ _ _ _ (reached_whole _ _ _ _ (wi_run _ _ _ _ _ _ V))) b c). Qed.
Lemma act_casts w op w1 ev : act w op = Ok (w1, ev) -> exists s1 e, fstep (wo_fine w) op = Ok (s1, e) /\ fi_casts (wo_fine w1) = fi_casts s1.
Proof.
  unfold act. destruct (fstep (wo_fine w) op) as [[s1 e]| |] eqn:E; try discriminate. cbn [bind]. fold (queue_ops (fold_left put_in e (wo_conns w)) e). generalize (fold_left put_in e (wo_conns w)). intros l.
  assert (X : forall e s s2 e2, frun s (queue_ops l e) = Ok (s2, e2) -> fi_casts s2 = fi_casts s).
  { intros e0. induction e0 as [|x e0 IH]; intros s s2 e2 H; [injection H as <- <-; reflexivity|]. assert (S : queue_ops l (x :: e0) = match x with XWire i _ (Some _) => queue_now l i | _ => [] end ++ queue_ops l e0) by reflexivity. rewrite S in H. clear S.
    destruct x; eauto. destruct sent; eauto. unfold queue_now in H. destruct (conn_get l id0); eauto. cbn [app frun fstep] in H. destruct (fobj_get (fi_objs s) id0); cbn [bind] in H;
    (destruct (frun _ (queue_ops l e0)) as [[s3 e3]| |] eqn:R; try discriminate; cbn [bind] in H; injection H as <- <-; rewrite (IH _ _ _ R); reflexivity). }
  destruct (frun s1 _) as [[s2 e2]| |] eqn:R; try discriminate. cbn [bind]. intros H. injection H as <- <-. exists s1, e. split; [reflexivity|]. exact (X _ _ _ _ R).
Qed.
Lemma name_casts s op s1 e b c : takes_name op = true -> fstep s op = Ok (s1, e) -> cast_get (fi_casts s1) b = Some c -> exists c', cast_get (fi_casts s) b = Some c'.
Proof.
  intros T E G. destruct op; try discriminate T; cbn [fstep] in E.
  - destruct (fobj_get (fi_objs s) id0) as [o|]; [|injection E as <- <-; eauto]. destruct (fo_pc o); injection E as <- <-; eauto.
  - destruct (fobj_get (fi_objs s) id0) as [o|]; [|injection E as <- <-; eauto]. unfold enter in E. destruct (sstep _ _); try discriminate. cbn [bind] in E. injection E as <- <-. eauto.
  - destruct (cast_get (fi_casts s) b0) as [[en ids [cur|] n]|] eqn:G0; try (injection E as <- <-; eauto; fail). destruct (mem ids id0); [|injection E as <- <-; eauto]. destruct (fobj_get (fi_objs s) id0) as [o|]; [|injection E as <- <-; eauto].
    unfold enter in E. destruct (sstep _ _); try discriminate. cbn [bind] in E. injection E as <- <-. cbn [set_casts fi_casts] in G. rewrite cast_get_set, G0 in G. destruct (Z.eqb_spec b b0) as [->|]; eauto.
Qed.
Lemma any_step w w' evs evs' op w1 e : wlike w w' -> winv env key merging ka evs w -> winv env key merging ka (evs ++ e) w1 -> winv env key merging ka evs' w' -> life id evs' = life id evs ->
  (forall p, In p (packets merging id (inside (evs ++ e))) -> O p) -> (forall i p, i <> id -> In p (packets merging i (inside (evs ++ e))) -> Q p) -> wlegal [op] -> wstep env key w op = Ok (w1, e) ->
  exists ops w1' e', wlegal ops /\ nobody_else id ops /\ wrun env key w' ops = Ok (w1', e') /\ wlike w1 w1' /\ life id e' = life id e.
Proof.
  intros L V V1 V' LF INO INQ LG E.
  assert (NONE : wlike w1 w' -> life id e = [] -> exists ops w1' e', wlegal ops /\ nobody_else id ops /\ wrun env key w' ops = Ok (w1', e') /\ wlike w1 w1' /\ life id e' = life id e).
  { intros X Y. exists [], w', []. split; [constructor|]. split; [constructor|]. split; [reflexivity|]. split; auto. }
  assert (ONE : forall w1' e', (step_of op = Some id \/ step_of op = None) -> wstep env key w' op = Ok (w1', e') -> wlike w1 w1' -> life id e' = life id e ->
    exists ops w1' e', wlegal ops /\ nobody_else id ops /\ wrun env key w' ops = Ok (w1', e') /\ wlike w1 w1' /\ life id e' = life id e).
  { intros w1' e' S X Y Z0. exists [op], w1', e'. split; [exact LG|]. split; [constructor; [exact S|constructor]|]. cbn [wrun]. rewrite X. cbn [bind]. rewrite app_nil_r. auto. }
  assert (PLAIN : plain_other op -> forall i, step_of op = Some i -> exists ops w1' e', wlegal ops /\ nobody_else id ops /\ wrun env key w' ops = Ok (w1', e') /\ wlike w1 w1' /\ life id e' = life id e).
  { intros PO i SO. destruct (Z.eq_dec i id) as [->|N].
    - destruct (wstep_same _ _ _ _ _ _ _ L V V1 V' INO PO SO E) as (w1' & A & B). eapply ONE; eauto.
    - destruct (wstep_other _ _ _ _ i _ _ L V V1 (fun p => INQ i p N) PO SO N E) as (A & B). eauto. }
  destruct op as [o|i d|i r|i|i|i rnd wr|i|i k]; try (eapply PLAIN; [exact Logic.I|reflexivity]). clear PLAIN.
  (* a step of the server *)
  assert (FE : flat_map (felt id) (inside evs') = flat_map (felt id) (inside evs)) by (apply felt_inside; exact LF).
  assert (R : reached (inside evs) (wo_fine w)) by apply V. assert (R' : reached (inside evs') (wo_fine w')) by apply V'.
  assert (MAIN : (forall a, wstep env key a (WDo o) = act a o) -> (forall j m, o <> FRecv j m) -> exists ops w1' e', wlegal ops /\ nobody_else id ops /\ wrun env key w' ops = Ok (w1', e') /\ wlike w1 w1' /\ life id e' = life id e).
  { intros W NR. rewrite W in E. assert (G : good_op o) by (destruct o; try exact Logic.I; destruct (NR _ _ eq_refl)). destruct (fstep_of o) as [i|] eqn:F.
    - destruct (Z.eq_dec i id) as [->|N].
      + assert (C : (exists b, o = FCastNext b id) \/ forall b, o <> FCastNext b id) by (destruct o; try (right; discriminate); cbn in F; injection F as ->; left; eauto). destruct C as [(b & ->)|C].
        * destruct (act_cast _ _ _ _ _ L E) as [(A & ->)|(w1' & A & B)]; [apply NONE; auto|]. eapply ONE; [left; reflexivity|rewrite W; exact A|exact B|reflexivity].
        * destruct (act_same _ _ _ _ _ _ L R' G F C E) as (w1' & A & B). eapply ONE; [left; exact F|rewrite W; exact A|exact B|reflexivity].
      + destruct (act_other _ _ _ _ _ _ _ L R F N E) as (A & [B|(T & B)]); [apply NONE; auto|].
        assert (BB : forall b c, cast_get (fi_casts (wo_fine w1)) b = Some c -> b < fi_toks (wo_fine w')).
        { intros b c X. destruct (act_casts _ _ _ _ E) as (s1 & e1 & E1 & C1). rewrite C1 in X. destruct (name_casts _ _ _ _ _ _ T E1 X) as (c' & X'). rewrite (lk_toks _ _ _ (wl_fine _ _ L)). eapply fresh_casts; eauto. }
        destruct (like_dummy id _ _ E0002 (wl_fine _ _ B) BB) as (s2 & ev & E2 & F2 & L2).
        assert (AQ : act w' (FCast E0002) = Ok (with_fine w' s2, map WFine ev)) by (apply act_quiet; [exact E2|eapply server_quiet; [|exact E2]; reflexivity]).
        exists [WDo (FCast E0002)], (with_fine w' s2), (map WFine ev). split; [repeat constructor|]. split; [constructor; [right; reflexivity|constructor]|]. split; [cbn [wrun wstep]; rewrite AQ; cbn [bind]; rewrite app_nil_r; reflexivity|].
        split; [|rewrite life_fine, F2, A; reflexivity]. destruct B as [B1 B2 B3 B4 B5 B6 B7]. constructor; auto.
    - destruct (act_server _ _ _ _ _ _ _ L R R' FE F E) as [(A & B)|(w1' & ev' & A & B & C)]; [apply NONE; auto|]. eapply ONE; [right; exact F|rewrite W; exact A|exact B|exact C]. }
  destruct o as [i| | | | | | | | | | | | | | | | | | | | | | | | | | | | | | |]; try (apply MAIN; [reflexivity|discriminate]); try (cbn [wstep] in E; injection E as <- <-; apply NONE; auto; fail).
  cbn [wstep] in E. destruct (Z.eq_dec i id) as [->|N].
  - destruct (conn_get (wo_conns w) id) as [c|] eqn:C; [injection E as <- <-; apply NONE; auto|]. destruct (act_same _ _ (inside evs') (FConnect id) _ _ (wl_set _ _ new_conn L) R' Logic.I eq_refl ltac:(discriminate) E) as (w1' & A & B).
    eapply ONE; [left; reflexivity|cbn [wstep]; rewrite (wl_conn _ _ L), C; exact A|exact B|reflexivity].
  - destruct (conn_get (wo_conns w) i) as [c|] eqn:C; [injection E as <- <-; apply NONE; auto|]. destruct (act_other _ _ (inside evs) (FConnect i) i _ _ (wl_set_other _ _ i new_conn N L) R eq_refl N E) as (A & [B|(B & _)]); [apply NONE; auto|discriminate].
Qed.

Hypothesis KEY : key_ok env key.
Lemma wrun_app a : forall b w w1 e1, wrun env key w a = Ok (w1, e1) -> wrun env key w (a ++ b) = do (w2, e2) <- wrun env key w1 b ; Ok (w2, e1 ++ e2).
Proof.
  induction a as [|op a IH]; intros b w w1 e1 A; cbn [wrun app] in *.
  - injection A as <- <-. destruct (wrun env key w b) as [[]| |]; reflexivity.
  - destruct (wstep env key w op) as [[w0 e0]| |]; try discriminate. cbn [bind] in *. destruct (wrun env key w0 a) as [[w3 e3]| |] eqn:E; try discriminate. cbn [bind] in A. injection A as <- <-.
    rewrite (IH b _ _ _ E). destruct (wrun env key w3 b) as [[w4 e4]| |]; cbn [bind]; rewrite ?app_assoc; reflexivity.
Qed.
Lemma winv_run evs w ops w1 e : winv env key merging ka evs w -> wlegal ops -> wrun env key w ops = Ok (w1, e) -> winv env key merging ka (evs ++ e) w1.
Proof.
  intros V LG R. destruct (wrun_ok env key merging ka KEY ops evs w V LG) as [(w' & e' & R' & V1)|(R' & _)]; rewrite R in R'; [injection R' as <- <-; exact V1|discriminate].
Qed.
Lemma life_app a b : life id (a ++ b) = life id a ++ life id b. Proof. apply flat_map_app. Qed.
Lemma alone_run ops : forall w w' evs evs' w1 e, wlike w w' -> winv env key merging ka evs w -> winv env key merging ka evs' w' -> life id evs' = life id evs ->
  (forall p, In p (packets merging id (inside (evs ++ e))) -> O p) -> (forall i p, i <> id -> In p (packets merging i (inside (evs ++ e))) -> Q p) -> wlegal ops -> wrun env key w ops = Ok (w1, e) ->
  exists ops' w1' e', wlegal ops' /\ nobody_else id ops' /\ wrun env key w' ops' = Ok (w1', e') /\ life id e' = life id e.
Proof.
  induction ops as [|op ops IH]; intros w w' evs evs' w1 e L V V' LF INO INQ LG R; cbn [wrun] in R.
  - injection R as <- <-. exists [], w', []. split; [constructor|]. split; [constructor|]. auto.
  - destruct (wstep env key w op) as [[w2 e2]| |] eqn:E; try discriminate. cbn [bind] in R. destruct (wrun env key w2 ops) as [[w3 e3]| |] eqn:R2; try discriminate. cbn [bind] in R. injection R as <- <-.
    assert (LG1 : wlegal [op]) by (inversion LG; subst; constructor; auto). assert (LG2 : wlegal ops) by (inversion LG; auto).
    assert (V2 : winv env key merging ka (evs ++ e2) w2) by (apply (winv_run evs w [op]); auto; cbn [wrun]; rewrite E; cbn [bind]; rewrite app_nil_r; reflexivity). rewrite app_assoc in INO, INQ.
    assert (SUB : forall i p, In p (packets merging i (inside (evs ++ e2))) -> In p (packets merging i (inside ((evs ++ e2) ++ e3)))) by (intros i p X; rewrite (inside_app _ e3), packets_app; apply in_app_iff; auto).
    destruct (any_step w w' evs evs' op w2 e2 L V V2 V' LF (fun p X => INO p (SUB id p X)) (fun i p N X => INQ i p N (SUB i p X)) LG1 E) as (o1 & w2' & e2' & A1 & A2 & A3 & A4 & A5).
    assert (LF2 : life id (evs' ++ e2') = life id (evs ++ e2)) by (rewrite !life_app; congruence).
    destruct (IH w2 w2' (evs ++ e2) (evs' ++ e2') w3 e3 A4 V2 (winv_run _ _ _ _ _ V' A1 A3) LF2 INO INQ LG2 R2) as (o2 & w3' & e3' & B1 & B2 & B3 & B4).
    exists (o1 ++ o2), w3', (e2' ++ e3'). split; [apply Forall_app; auto|]. split; [apply Forall_app; auto|]. split; [rewrite (wrun_app o1 o2 _ _ _ A3), B3; reflexivity|]. rewrite !life_app. congruence.
Qed.
End Alone.

Lemma packets_ok env key merging ka evs w i p : winv env key merging ka evs w -> In p (packets merging i (inside evs)) -> packet_ok p.
Proof.
  intros V I. unfold packets in I. apply in_flat_map in I as (m & I & P). assert (RM : received m).
  { unfold got_by in I. apply in_flat_map in I as (ev & I & X). destruct ev; try contradiction. destruct (_ =? _); [|contradiction]. destruct X as [<-|[]]. eapply recv_received; [apply V|exact I]. }
  destruct (part_of merging m) as [[[mf sq] data]|] eqn:PO; [|contradiction]. destruct P as [<-|[]]. destruct RM as (R1 & R2 & _ & R4 & _ & R6). unfold part_of in PO. destruct (h_packet (m_hdr m)) as [[sum s]|]; [|discriminate].
  destruct (m_body m) as [| |b]; try discriminate. destruct b; try discriminate. destruct merging; [|discriminate]. injection PO as <- <- <-. destruct R6 as (_ & R6 & _). split; cbn [pk_up pk_seq]; [|apply R4].
  unfold mpf_ok. cbn [mp_icc mp_msgid mp_tag mp_sum]. unfold is_u32 in *. repeat split; try lia; try apply R1; try apply R4; try apply R6.
Qed.
Theorem as_if_alone env key merging ka f id evs : occurs env key merging ka f evs -> own_uploads merging id evs ->
  exists evs', occurs_alone env key merging ka f id evs' /\ life id evs' = life id evs.
Proof.
  intros (KEY & ops & w & LG & R) OU. pose proof (winv_run env key merging ka KEY [] _ ops w evs (init_inv env key merging ka f) LG R) as V. cbn [app] in V.
  set (O := fun p => In p (packets merging id (inside evs))). set (Q := fun p => exists i, i <> id /\ In p (packets merging i (inside evs))).
  assert (L : wlike id O Q (world_init merging ka f) (world_init merging ka f)).
  { constructor; try reflexivity; cbn [world_init wo_fine wo_fs wo_up].
    - apply like_init.
    - apply agree_refl.
    - split; constructor.
    - intros i N. split; constructor. }
  destruct (alone_run env key merging ka id O Q) with (ops := ops) (w := world_init merging ka f) (w' := world_init merging ka f) (evs := @nil wevent) (evs' := @nil wevent) (w1 := w) (e := evs) as (ops' & w1' & e' & A & B & C & D); auto.
  - intros p I. eapply packets_ok; eauto.
  - intros p (i & N & I). eapply packets_ok; eauto.
  - intros p q (i & N & I) J. unfold same_upload in *. rewrite (Z.eqb_sym (mp_icc _)), (Z.eqb_sym (mp_msgid _)), (Z.eqb_sym (mp_tag _)). exact (OU i q p N J I).
  - apply init_inv.
  - apply init_inv.
  - intros i p N I. exists i. auto.
  - exists e'. split; [|exact D]. split; [exact KEY|]. exists ops', w1'. auto.
Qed.
(** Without other connections there are no uploads of others. *)
Lemma none_else env key id w op w' e : (forall i, i <> id -> conn_get (wo_conns w) i = None) -> (step_of op = Some id \/ step_of op = None) -> wstep env key w op = Ok (w', e) -> forall i, i <> id -> conn_get (wo_conns w') i = None.
Proof.
  intros H S E i N. assert (STILL : Ok (w, []) = Ok (w', e) -> conn_get (wo_conns w') i = None) by (intros X; injection X as <- <-; auto).
  assert (ACT : forall a o x ev, conn_get (wo_conns a) i = None -> act a o = Ok (x, ev) -> conn_get (wo_conns x) i = None).
  { intros a o x ev C A. unfold act in A. destruct (fstep _ _) as [[s1 e1]| |]; try discriminate. cbn [bind] in A. destruct (frun _ _) as [[s2 e2]| |]; try discriminate. cbn [bind] in A. injection A as <- <-. cbn [wo_conns]. rewrite put_get, C. reflexivity. }
  assert (SET : forall j c, j <> i -> conn_get (wo_conns (set_wconn w j c)) i = None) by (intros j c M; cbn [set_wconn wo_conns]; rewrite conn_get_set; destruct (Z.eqb_spec j i); [congruence|auto]).
  destruct op as [o|j d|j r|j|j|j rnd wr|j|j k]; cbn [wstep] in E; [|destruct S as [S|S]; cbn [step_of] in S; [injection S as ->|discriminate S]..].
  - destruct o; try (exact (STILL E)); try exact (ACT w _ _ _ (H i N) E). destruct (conn_get (wo_conns w) id0); [exact (STILL E)|]. destruct S as [S|S]; cbn [step_of fstep_of] in S; [|discriminate S]. assert (id0 <> i) by congruence. eapply ACT; [apply (SET id0); assumption|exact E].
  - destruct (conn_get (wo_conns w) id); auto. injection E as <- <-. apply SET. congruence.
  - assert (GOT : forall c x, got w id c x = Ok (w', e) -> conn_get (wo_conns w') i = None).
    { intros c [sc b] G. unfold got in G. destruct sc as [m|er| |]; [|eapply ACT; [apply (SET id); congruence|exact G]|injection G as <- <-; apply SET; congruence|discriminate].
      destruct (act _ (FRecv id m)) as [[w1 ev]| |] eqn:A; try discriminate. cbn [bind] in G. injection G as <- <-.
      assert (X : conn_get (wo_conns w1) i = None) by (eapply ACT; [apply (SET id); congruence|exact A]). unfold begin_upload. destruct (pc_of _ id) as [[]|]; auto. destruct (packet_of _); auto. }
    unfold receive in E. destruct (pc_of (wo_fine w) id) as [p|]; auto. destruct p; auto. destruct (conn_get (wo_conns w) id) as [c|]; auto. destruct (cn_at c); auto; [eapply GOT; eauto|]. destruct r as [k|er].
    + destruct (firstn _ (cn_in c)) as [|d0 d].
      * destruct (is_closed (wo_fine w) id); auto. eapply ACT; [apply (SET id); congruence|exact E].
      * cbv zeta in E. destruct (65535 <? _); [|eapply GOT; eauto]. eapply ACT; [apply (SET id); congruence|exact E].
    + destruct (act _ (FFail id)) as [[w1 ev]| |] eqn:A; try discriminate. cbn [bind] in E. injection E as <- <-. eapply ACT; [apply (SET id); congruence|exact A].
  - assert (UP : forall f t, conn_get (wo_conns (set_up w id f t)) i = None) by (intros; apply H; exact N).
    unfold access in E. destruct (thread_step (wo_fs w) (wo_up w id)) as [f t]. destruct (pc_of (wo_fine w) id) as [[]|]; auto;
    (destruct (th_at (wo_up w id)); [first [exact (ACT _ _ _ _ (H i N) E) | exact (ACT _ _ _ _ (UP f t) E)]|..]; (destruct (th_at t); try (injection E as <- <-; apply UP); exact (ACT _ _ _ _ (UP f t) E))).
  - unfold wtake in E. destruct (conn_get (wo_conns w) id) as [c|]; auto. destruct (cn_sending c); auto. destruct (cn_flight c); auto. destruct (cn_queue c) as [|m q]; auto. cbv zeta in E. destruct (frun _ _) as [[s2 e2]| |]; try discriminate. cbn [bind] in E. injection E as <- <-.
    apply (SET id). congruence.
  - unfold wwrite in E. destruct (conn_get (wo_conns w) id) as [c|]; auto. destruct (cn_flight c) as [m|]; auto. destruct (codec_send _ _ _ _ _); try discriminate; [injection E as <- <-; apply SET; congruence|].
    destruct (act _ (FShut id)) as [[w1 ev]| |] eqn:A; try discriminate. cbn [bind] in E. injection E as <- <-. eapply ACT; [apply (SET id); congruence|exact A].
  - injection E as <- <-. unfold wquit. destruct (conn_get (wo_conns w) id) as [c|] eqn:C; auto. destruct (cn_flight c); auto. destruct (is_closed _ _); auto; try (apply SET; congruence).
  - destruct (conn_get (wo_conns w) id); auto. injection E as <- <-. apply SET. congruence.
Qed.
Lemma none_else_run env key id ops : forall w w' e, (forall i, i <> id -> conn_get (wo_conns w) i = None) -> nobody_else id ops -> wrun env key w ops = Ok (w', e) -> forall i, i <> id -> conn_get (wo_conns w') i = None.
Proof.
  induction ops as [|op ops IH]; intros w w' e H NE R; cbn [wrun] in R; [injection R as <- <-; exact H|]. inversion NE; subst. destruct (wstep env key w op) as [[w1 e1]| |] eqn:E; try discriminate. cbn [bind] in R.
  destruct (wrun env key w1 ops) as [[w2 e2]| |] eqn:R2; try discriminate. cbn [bind] in R. injection R as <- <-. eapply IH; [|eassumption|exact R2]. eapply none_else; eauto.
Qed.
Theorem alone_is_one_of_all env key merging ka f id evs : occurs_alone env key merging ka f id evs -> occurs env key merging ka f evs /\ own_uploads merging id evs.
Proof.
  intros (KEY & ops & w & LG & NE & R). split; [split; [exact KEY|]; exists ops, w; auto|]. intros i p q N I J. exfalso.
  pose proof (winv_run env key merging ka KEY [] _ ops w evs (init_inv env key merging ka f) LG R) as V. cbn [app] in V.
  pose proof (none_else_run env key id ops _ _ _ (fun (i : Z) (_ : i <> id) => eq_refl : conn_get (wo_conns (world_init merging ka f)) i = None) NE R i N) as C. pose proof (wi_conn _ _ _ _ _ _ V i) as X. rewrite C in X. destruct (fobj_get _ i); [contradiction|]. destruct X as (_ & _ & X & _).
  unfold packets in J. rewrite X in J. contradiction.
Qed.
Theorem cannot_tell env key merging ka f id l :
  (exists evs, occurs env key merging ka f evs /\ own_uploads merging id evs /\ life id evs = l) <-> (exists evs, occurs_alone env key merging ka f id evs /\ life id evs = l).
Proof.
  split.
  - intros (evs & A & B & <-). apply as_if_alone; assumption.
  - intros (evs & A & B). exists evs. destruct (alone_is_one_of_all _ _ _ _ _ _ _ A). auto.
Qed.
Theorem alone_no_merging env key ka f id evs : occurs env key false ka f evs -> exists evs', occurs_alone env key false ka f id evs' /\ life id evs' = life id evs.
Proof.
  intros A. apply as_if_alone; [exact A|]. intros i p q _ I. exfalso. unfold packets in I. apply in_flat_map in I as (m & _ & I). unfold part_of in I.
  destruct (h_packet (m_hdr m)) as [[]|]; [|contradiction]. destruct (m_body m) as [| |b]; try contradiction. destruct b; contradiction.
Qed.
