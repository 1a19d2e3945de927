(** The whole process: every step keeps the invariant. *)
From Verif Require Import Base LibBase Bits Env Registry Message Codec Timer Session Multipart Server Host.
From Verif Require Import SpecGeo SpecEntity SpecMsg SpecStream SpecSession SpecMulti SpecTimer SpecServer.
From Verif Require Import ProofStream ProofStream2 ProofMsg ProofMsg2 ProofServer ProofServer2 ProofServer3 ProofServer4 ProofServer6 ProofServer7 ProofHost.
From Verif Require Import SpecHost.

(** ** What operations send *)
Definition plain_msg (m : message) : Prop := exists e icc n, m = Message (Header (entity_id e) 0 icc n None) (BEnt e).
Definition one_send (T : trace) (id : Z) (evs : list sv_event) : Prop :=
  sends_to id evs = [] \/ exists m, sends_to id evs = [m] /\ is_shut T id = false /\ blocked (ops_of T) id = false /\ In id (connects (ops_of T)) /\ plain_msg m.
Lemma sending_one mg prior T i e evs id : sending mg prior T i e evs -> In i (connects (ops_of T)) -> one_send T id evs /\ (i <> id -> sends_to id evs = []).
Proof.
  unfold sending, one_send. intros S C. destruct (is_shut T i) eqn:H; [subst; cbn; auto|]. destruct (blocked (ops_of T) i) eqn:B; [subst; cbn; auto|]. subst evs. cbn [sends_to flat_map app].
  destruct (Z.eqb_spec i id) as [->|N]; [|auto]. split; [|congruence]. right. eexists. split; [reflexivity|]. repeat split; auto. do 3 eexists. reflexivity.
Qed.
Lemma dispatching_sends T i now m evs id : dispatching T i now m evs -> sends_to id evs = [].
Proof. intros (ans & A & ->). rewrite sends_to_app. destruct A as [(-> & _)|(r & _ & _ & ->)]; cbn; destruct (handler_of _ _); reflexivity. Qed.
Lemma shut_flat_sends (P : Z -> bool) id keys : sends_to id (flat_map (fun i => shut_if (P i) i) keys) = [].
Proof. induction keys as [|k keys IH]; auto. cbn [flat_map]. rewrite sends_to_app, IH. unfold shut_if. destruct (P k); reflexivity. Qed.
Lemma connected_in T id : connected T id = true <-> In id (connects (ops_of T)).
Proof. unfold connected. rewrite existsb_exists. split; [intros (x & I & E); assert (id = x) by lia; subst; auto|intros I; exists id; split; auto; lia]. Qed.
Lemma blocks_one mg prior T e id ids : forall blocks, NoDup ids -> (forall i, In i ids -> In i (connects (ops_of T))) ->
  Forall2 (fun i b => sending mg prior T i e b) ids blocks -> one_send T id (concat blocks) /\ (~ In id ids -> sends_to id (concat blocks) = []).
Proof.
  induction ids as [|i ids IH]; intros blocks N C F; inversion F; subst; cbn [concat]; [split; [left|]; reflexivity|].
  inversion N; subst. destruct (IH l' H4) as (A & B); auto; [intros; apply C; cbn; auto|].
  destruct (sending_one _ _ _ _ _ _ id H1) as (A1 & B1); [apply C; cbn; auto|]. unfold one_send in *. rewrite sends_to_app. destruct (Z.eq_dec i id) as [->|D].
  - rewrite (B H2), app_nil_r. split; auto. cbn. intuition.
  - rewrite (B1 D). cbn [app]. split; auto. cbn. intuition.
Qed.
Lemma effect_sends mg ka prior T op evs id : effect mg ka prior T op evs -> legal_op (ops_of T) op -> one_send T id evs.
Proof.
  intros E L. destruct op; cbn [effect legal_op] in *.
  - subst. left. reflexivity.
  - subst. left. reflexivity.
  - destruct L as (C & _). unfold delivery in E. destruct (has_body m).
    + destruct (part_of mg m) as [[[mf sq] data]|].
      * destruct (completes _ _).
        -- destruct E as (c & e1 & e2 & _ & -> & S & D). apply dispatching_sends with (id := id) in D. apply (sending_one _ _ _ _ _ _ id) in S; auto.
           unfold one_send in *. rewrite sends_to_app, D, app_nil_r. apply S.
        -- eapply sending_one; eauto.
      * left. eapply dispatching_sends; eauto.
    + eapply sending_one; eauto.
  - subst. left. unfold shut_if. destruct (open T id0); reflexivity.
  - destruct E as [(-> & _)|(-> & _)]; left; reflexivity.
  - destruct E as (keys & _ & ->). left. apply shut_flat_sends.
  - destruct E as (ids & blocks & N & R & F & ->). unfold one_send. rewrite sends_to_app. cbn [sends_to flat_map app]. rewrite app_nil_r. eapply (blocks_one mg prior T e id ids blocks); auto.
    intros i I. apply R in I. unfold registered in I. apply connected_in. destruct (connected T i); auto.
  - destruct (connected T id0) eqn:C; [|subst; left; reflexivity]. eapply sending_one; eauto. apply connected_in; auto.
  - destruct (connected T id0) eqn:C; [|subst; left; reflexivity]. eapply sending_one; eauto. apply connected_in; auto.
  - subst. left. reflexivity.
  - subst. left. reflexivity.
Qed.
(** Only plain messages are ever sent, and only on accepted sessions. *)
Lemma connects_app a b : connects (a ++ b) = connects a ++ connects b. Proof. apply flat_map_app. Qed.
Lemma sent_connected mg ka prior T id m : exact mg ka prior T -> legal (ops_of T) -> In m (sent_to id T) -> In id (connects (ops_of T)) /\ plain_msg m.
Proof.
  induction T as [|[op evs] T IH] using rev_ind; intros X L I; [contradiction|]. rewrite sent_to_app in I. apply in_app_iff in I. rewrite ops_snoc in *. cbn [fst] in *.
  rewrite connects_app, in_app_iff. destruct I as [I|I].
  - destruct IH as (A & B); auto.
    + intros pre p es post E. apply (X pre p es (post ++ [(op, evs)])). rewrite E, <- app_assoc. reflexivity.
    + intros pre p post E. apply (L pre p (post ++ [op])). rewrite E, <- app_assoc. reflexivity.
  - rewrite sent_to_eq in I. cbn [effects flat_map snd] in I. rewrite app_nil_r in I.
    destruct (effect_sends _ _ _ _ _ _ id (X T op evs [] eq_refl) (L _ _ _ eq_refl)) as [E|(m' & E & _ & _ & C & P)]; rewrite E in I; cbn in I; [contradiction|]. destruct I as [<-|[]]. auto.
Qed.
Lemma delivered_connected T id m : legal (ops_of T) -> In m (delivered id T) -> In id (connects (ops_of T)).
Proof.
  intros L I. unfold delivered in I. apply in_flat_map in I. destruct I as ([op evs] & I & H). destruct op; try contradiction. destruct (Z.eqb_spec id0 id) as [->|]; [|contradiction].
  apply in_split in I. destruct I as (a & b & ->). unfold ops_of in *. rewrite map_app in *. cbn [map fst] in *. destruct (L _ _ _ eq_refl) as (C & _).
  rewrite connects_app, in_app_iff. auto.
Qed.

(** ** The invariant of a connection *)
Section Host.
Variables (env : Env) (key : option Z) (o : options) (prior : list mop) (sv0 : server).
Hypothesis KEY : key_ok env key.
Notation mg := (opt_auto o).
Notation ka := (keepalive o).
Notation core := (core o prior sv0).

Record recv_ok (id : Z) (ops : list host_op) (T : trace) (c : conn) : Prop := {
  rc_bytes : bytes_ok (arrived id ops);
  rc_split : exists past rest, arrived id ops = past ++ rest /\
    (forall x, says env key (past ++ x) = (delivered id T ++ fst (says env key x), snd (says env key x))) /\
    match cn_at c with
    | AtStart => rest = cn_buf c ++ cn_in c
    | InRead => rest = cn_buf c ++ cn_in c /\ incomplete (cn_buf c)
    | Left => is_shut T id = true /\ ((exists e, says env key rest = ([], GotErr e)) \/ ~ manageable (arrived id ops) \/ ~ unbroken id ops)
    end }.
Definition in_flight (c : conn) : list message := match cn_flight c with Some m => [m] | None => [] end.
Record send_but (P : Prop) (id : Z) (T : trace) (W : list bytes) (c : conn) : Prop := {
  sn_sent : exists ws lost, sent_to id T = ws ++ lost ++ in_flight c ++ cn_queue c /\ Forall2 (frame_of env) ws W /\ (cn_sending c = true -> lost = []);
  sn_dead : cn_sending c = false -> P /\ cn_flight c = None;
  sn_room : (length (cn_queue c) <= 24)%nat;
  sn_full : blocked (ops_of T) id = full c }.
Definition send_ok (id : Z) (T : trace) : list bytes -> conn -> Prop := send_but (is_shut T id = true) id T.
Lemma send_weak (P Q : Prop) id T W c : (P -> Q) -> send_but P id T W c -> send_but Q id T W c.
Proof. intros H [A B C D]. constructor; auto. intros X. destruct (B X). auto. Qed.
Record hinv (tr : htrace) (h : host) : Prop := {
  hv_core : core (inner tr) (ho_sv h);
  hv_acc : connects (ops_of (inner tr)) = accepted (hops tr);
  hv_asked : asked (ops_of (inner tr)) = requested (hops tr);
  hv_conn : forall id, match conn_get (ho_conns h) id with
    | None => ~ In id (accepted (hops tr)) /\ arrived id (hops tr) = [] /\ wire id tr = []
    | Some c => In id (accepted (hops tr)) /\ recv_ok id (hops tr) (inner tr) c /\ send_ok id (inner tr) (wire id tr) c
    end }.

Lemma close_shuts T id evs q : In id (connects (ops_of T)) -> effect mg ka prior T (OClose id) evs -> is_shut (T ++ (OClose id, evs) :: q) id = true.
Proof.
  intros C E. cbn [effect] in E. rewrite is_shut_app. destruct (is_shut T id) eqn:S; auto. cbn [orb]. unfold open in E. apply connected_in in C. rewrite C, S in E. cbn in E. subst evs.
  unfold is_shut, effects. cbn. rewrite Z.eqb_refl. reflexivity.
Qed.
(** The sending side under an operation of the server *)
Lemma send_grows id T W c op evs l q : effect mg ka prior T op evs -> legal_op (ops_of T) op -> (forall b, op <> OQueue id b) -> (forall now, op <> OConnect id now) ->
  q = map (fun op => (op, [])) (queue_ops l evs) -> conn_get l id = Some (grown id evs c) -> In id (connects (ops_of T)) ->
  send_but (is_shut T id = true \/ op = OClose id) id T W c -> send_ok id (T ++ (op, evs) :: q) W (grown id evs c).
Proof.
  intros E L NQ NC Q G CN [S D R F].
  assert (QE : effects q = []). { subst q. unfold effects. induction (queue_ops l evs); auto. }
  assert (QO : ops_of q = queue_ops l evs). { subst q. unfold ops_of. rewrite map_map. apply map_id. }
  assert (ST : sent_to id (T ++ (op, evs) :: q) = sent_to id T ++ sends_to id evs).
  { rewrite sent_to_app. f_equal. rewrite sent_to_eq. unfold effects in *. cbn [flat_map snd]. rewrite QE, app_nil_r. reflexivity. }
  assert (BL : blocked (ops_of T ++ [op]) id = blocked (ops_of T) id).
  { rewrite blocked_snoc. destruct op; auto; destruct (Z.eqb_spec id0 id) as [->|]; auto; [destruct (NC now); auto|destruct (NQ full); auto]. }
  assert (BF : blocked (ops_of (T ++ (op, evs) :: q)) id = match sends_to id evs with [] => full c | _ => full (grown id evs c) end).
  { change (T ++ (op, evs) :: q) with (T ++ [(op, evs)] ++ q). rewrite app_assoc. unfold ops_of at 1. rewrite map_app. fold (ops_of (T ++ [(op, evs)])). fold (ops_of q).
    rewrite ops_snoc, QO, blocked_app, G. cbn [fst]. rewrite BL, F. destruct (sends_to id evs); reflexivity. }
  assert (BB : blocked (ops_of (T ++ (op, evs) :: q)) id = full (grown id evs c)).
  { rewrite BF. destruct (sends_to id evs) eqn:Z0; auto. unfold grown, full. rewrite Z0. cbn. rewrite app_nil_r. reflexivity. }
  constructor; auto.
  - destruct S as (ws & lost & S & FW & FS). exists ws, lost. rewrite ST, S, <- !app_assoc. auto.
  - cbn [grown with_send cn_sending cn_flight]. intros X. destruct (D X) as (D1 & D2). split; auto. destruct D1 as [D1| ->]; [rewrite is_shut_app, D1; reflexivity|]. apply close_shuts; auto.
  - unfold grown. cbn [with_send cn_queue]. rewrite app_length. destruct (effect_sends _ _ _ _ _ _ id E L) as [Z0|(m & Z0 & _ & B & _)]; rewrite Z0; cbn [length]; [lia|].
    rewrite F in B. unfold full in B. apply Nat.eqb_neq in B. lia.
Qed.
(** The receiving side, when nothing is delivered or read *)
Lemma delivered_quiet id op evs q l : q = map (fun op => (op, [])) (queue_ops l evs) ->
  delivered id ((op, evs) :: q) = match op with ODeliver i _ m => if i =? id then [m] else [] | _ => [] end.
Proof.
  intros ->. cbn [delivered flat_map]. replace (flat_map _ (map _ _)) with (@nil message); [apply app_nil_r|].
  symmetry. pose proof (queue_ops_kind l evs) as K. induction (queue_ops l evs) as [|x q IH]; auto. cbn [map flat_map].
  destruct (K x (or_introl eq_refl)) as (i & b & ->). cbn [app]. apply IH. intros; apply K; cbn; auto.
Qed.
Lemma recv_same id ops1 ops2 T X c c' : recv_ok id ops1 T c -> arrived id ops2 = arrived id ops1 -> (unbroken id ops2 -> unbroken id ops1) ->
  delivered id X = [] -> cn_in c' = cn_in c -> cn_buf c' = cn_buf c -> cn_at c' = cn_at c -> recv_ok id ops2 (T ++ X) c'.
Proof.
  intros [B (past & rest & E & P & M)] A U D E1 E2 E3. constructor; rewrite A; auto. exists past, rest. split; auto. rewrite delivered_app, D, app_nil_r. split; auto.
  rewrite E1, E2, E3. destruct (cn_at c); auto. destruct M as (M & N). split; [rewrite is_shut_app, M; reflexivity|]. intuition.
Qed.
Lemma recv_grown id ops T evs c : recv_ok id ops T c -> recv_ok id ops T (grown id evs c). Proof. intros [B S]. constructor; auto. Qed.

(** ** Histories *)
Lemma inner_snoc tr op evs : inner (tr ++ [(op, evs)]) = inner tr ++ served evs.
Proof. unfold inner. rewrite flat_map_app. cbn. rewrite app_nil_r. reflexivity. Qed.
Lemma hops_snoc tr op (evs : list host_event) : hops (tr ++ [(op, evs)]) = hops tr ++ [op]. Proof. unfold hops. rewrite map_app. reflexivity. Qed.
Lemma wire_snoc id tr op evs : wire id (tr ++ [(op, evs)]) = wire id tr ++ writes id evs.
Proof. unfold wire, writes. rewrite !flat_map_app. cbn. rewrite app_nil_r. reflexivity. Qed.
Lemma arrived_snoc id ops op : arrived id (ops ++ [op]) = arrived id ops ++ match op with HArrive i d => if i =? id then d else [] | _ => [] end.
Proof. unfold arrived. rewrite map_app, concat_app. cbn. rewrite app_nil_r. reflexivity. Qed.
Lemma accepted_snoc ops op : accepted (ops ++ [op]) = accepted ops ++ match op with HOp (OConnect id _) => [id] | _ => [] end.
Proof. unfold accepted. rewrite flat_map_app. cbn. rewrite app_nil_r. reflexivity. Qed.
Lemma requested_snoc ops op : requested (ops ++ [op]) = requested ops ++ match op with HOp (ORequest _ t _) => [t] | _ => [] end.
Proof. unfold requested. rewrite flat_map_app. cbn. rewrite app_nil_r. reflexivity. Qed.
Lemma asked_app a b : asked (a ++ b) = asked a ++ asked b. Proof. apply flat_map_app. Qed.
Lemma served_sv tr : served (sv_events tr) = tr.
Proof. unfold served, sv_events. induction tr as [|[op es] tr IH]; auto. cbn. f_equal. exact IH. Qed.
Lemma writes_sv id tr : writes id (sv_events tr) = [].
Proof. unfold writes, sv_events. induction tr as [|[op es] tr IH]; auto. Qed.
Lemma unbroken_snoc id ops op : unbroken id (ops ++ [op]) -> unbroken id ops.
Proof. intros H now e I. apply (H now e). apply in_app_iff. auto. Qed.
Lemma queue_names q l evs : q = map (fun op => (op, [])) (queue_ops l evs) -> connects (ops_of q) = [] /\ asked (ops_of q) = [].
Proof.
  intros ->. assert (K := queue_ops_kind l evs). unfold ops_of. rewrite map_map. cbn [fst]. rewrite map_id. induction (queue_ops l evs) as [|x q IH]; auto.
  destruct (K x (or_introl eq_refl)) as (i & b & ->). apply IH. intros; apply K; cbn; auto.
Qed.

(** ** Steps *)
Definition delivery_of (op : sv_op) (id : Z) : list message := match op with ODeliver i _ m => if i =? id then [m] else [] | _ => [] end.
Lemma perform_inv tr h h1 op hop : hinv tr h -> ho_sv h1 = ho_sv h -> legal_op (ops_of (inner tr)) op -> (forall i b, op <> OQueue i b) -> (forall i now, op <> OConnect i now) ->
  accepted (hops tr ++ [hop]) = accepted (hops tr) -> requested (hops tr ++ [hop]) = requested (hops tr) ++ match op with ORequest _ t _ => [t] | _ => [] end ->
  (forall id, match conn_get (ho_conns h1) id with
    | None => ~ In id (accepted (hops tr)) /\ arrived id (hops tr ++ [hop]) = [] /\ wire id tr = []
    | Some c => In id (accepted (hops tr)) /\ send_but (is_shut (inner tr) id = true \/ op = OClose id) id (inner tr) (wire id tr) c /\
        (forall X, delivered id X = delivery_of op id -> (op = OClose id -> is_shut (inner tr ++ X) id = true) -> recv_ok id (hops tr ++ [hop]) (inner tr ++ X) c)
    end) ->
  exists h' evs, perform h1 op = Ok (h', evs) /\ hinv (tr ++ [(hop, evs)]) h'.
Proof.
  intros V SV L NQ NC A R C. destruct V as [V1 V2 V3 V4]. rewrite <- SV in V1.
  destruct (perform_ok o prior sv0 (inner tr) h1 op V1 L) as (sv' & evs & q & P & C' & E & Q). cbv zeta in *.
  exists (Host sv' (fold_left enqueue evs (ho_conns h1))), (HSv op evs :: sv_events q). split; [exact P|]. clear P.
  assert (S : served (HSv op evs :: sv_events q) = (op, evs) :: q).
  { change (served (HSv op evs :: sv_events q)) with ((op, evs) :: served (sv_events q)). rewrite served_sv. reflexivity. }
  destruct (queue_names q _ evs Q) as (QC & QA).
  constructor; rewrite ?inner_snoc, ?S, ?hops_snoc; cbn [ho_sv ho_conns].
  - exact C'.
  - unfold ops_of in *. rewrite map_app, connects_app. cbn [map fst connects flat_map]. fold (connects (map fst q)). rewrite QC, V2, A. destruct op; cbn; rewrite ?app_nil_r; auto. destruct (NC id now); auto.
  - unfold ops_of in *. rewrite map_app, asked_app. cbn [map fst asked flat_map]. fold (asked (map fst q)). rewrite QA, V3, R. rewrite app_nil_r. reflexivity.
  - intros id. specialize (C id). rewrite fold_enqueue. destruct (conn_get (ho_conns h1) id) as [c|] eqn:G; cbn [option_map]; rewrite A.
    2:{ rewrite wire_snoc. change (writes id (HSv op evs :: sv_events q)) with (writes id (sv_events q)). rewrite writes_sv, app_nil_r. exact C. }
    destruct C as (I & SO & RO). split; auto. split.
    + apply recv_grown. apply RO.
      * apply (delivered_quiet id op evs q _ Q).
      * intros ->. apply close_shuts; auto. rewrite V2. exact I.
    + rewrite wire_snoc. change (writes id (HSv op evs :: sv_events q)) with (writes id (sv_events q)). rewrite writes_sv, app_nil_r.
      eapply send_grows; eauto; [rewrite fold_enqueue, G; reflexivity|rewrite V2; exact I].
Qed.
(** The receiving side when the step does not concern it *)
Lemma recv_keep id tr hop op c X : recv_ok id (hops tr) (inner tr) c -> arrived id (hops tr ++ [hop]) = arrived id (hops tr) -> delivery_of op id = [] ->
  delivered id X = delivery_of op id -> recv_ok id (hops tr ++ [hop]) (inner tr ++ X) c.
Proof. intros R A D E. eapply recv_same; eauto; [apply unbroken_snoc|congruence]. Qed.
Lemma hstep_op tr h op : hinv tr h -> hlegal_op (hops tr) (HOp op) -> (forall i now, op <> OConnect i now) ->
  exists h' evs, perform h op = Ok (h', evs) /\ hinv (tr ++ [(HOp op, evs)]) h'.
Proof.
  intros V L NC. destruct V as [V1 V2 V3 V4].
  assert (A : accepted (hops tr ++ [HOp op]) = accepted (hops tr)). { rewrite accepted_snoc. destruct op; rewrite ?app_nil_r; auto. destruct (NC id now); auto. }
  apply perform_inv with (h := h); auto; try (constructor; assumption).
  - destruct op; cbn in *; auto; try contradiction; rewrite ?V2, ?V3; auto.
  - intros i b ->. exact L.
  - rewrite requested_snoc. reflexivity.
  - intros id. specialize (V4 id). destruct (conn_get (ho_conns h) id) as [c|].
    + destruct V4 as (I & R & S). split; auto. split; [eapply send_weak; [|exact S]; auto|]. intros X D _. eapply recv_keep; eauto; [rewrite arrived_snoc, app_nil_r; reflexivity|]. destruct op; auto. contradiction L.
    + rewrite arrived_snoc, app_nil_r. exact V4.
Qed.
Lemma full_new : full new_conn = false. Proof. reflexivity. Qed.
Lemma hstep_connect tr h id now : hinv tr h -> ~ In id (accepted (hops tr)) ->
  exists h' evs, perform (set_conn h id new_conn) (OConnect id now) = Ok (h', evs) /\ hinv (tr ++ [(HOp (OConnect id now), evs)]) h'.
Proof.
  intros V L. destruct V as [V1 V2 V3 V4]. set (h1 := set_conn h id new_conn).
  destruct (perform_ok o prior sv0 (inner tr) h1 (OConnect id now) V1) as (sv' & evs & q & P & C' & E & Q); [cbn; rewrite V2; exact L|]. cbv zeta in *. cbn [effect] in E. subst evs.
  cbn [fold_left enqueue queue_ops flat_map map app] in *. subst q. cbn [sv_events map] in P. eexists _, _. split; [exact P|]. clear P.
  assert (D0 : delivered id (inner tr) = []).
  { destruct (delivered id (inner tr)) as [|m ms] eqn:D; auto. exfalso. apply L. rewrite <- V2. eapply delivered_connected; [apply V1|rewrite D; cbn; auto]. }
  assert (S0 : sent_to id (inner tr) = []).
  { destruct (sent_to id (inner tr)) as [|m ms] eqn:D; auto. exfalso. apply L. rewrite <- V2. eapply sent_connected; [apply V1|apply V1|rewrite D; cbn; auto]. }
  assert (N0 : conn_get (ho_conns h) id = None).
  { specialize (V4 id). destruct (conn_get (ho_conns h) id); auto. destruct V4. contradiction. }
  pose proof (V4 id) as A0. rewrite N0 in A0. destruct A0 as (_ & A0 & W1).
  assert (W0 : wire id tr = [] -> send_ok id (inner tr ++ [(OConnect id now, [SvRefresh id now])]) (wire id tr) new_conn).
  { intros W. constructor; cbn [cn_sending cn_flight cn_queue new_conn]; try discriminate.
    - exists [], []. rewrite sent_to_app, S0, W. cbn. auto.
    - cbn. lia.
    - rewrite ops_snoc, blocked_snoc. cbn [fst]. rewrite Z.eqb_refl. reflexivity. }
  constructor; rewrite ?inner_snoc, ?hops_snoc; cbn [ho_sv ho_conns served flat_map app].
  - exact C'.
  - rewrite ops_snoc, connects_snoc, accepted_snoc, V2. reflexivity.
  - rewrite ops_snoc, asked_app, requested_snoc, V3. cbn. reflexivity.
  - intros x. unfold h1, set_conn. cbn [ho_conns]. rewrite conn_get_set, wire_snoc, accepted_snoc, arrived_snoc. cbn [writes flat_map]. rewrite !app_nil_r.
    destruct (Z.eqb_spec id x) as [<-|N].
    + split; [apply in_app_iff; cbn; auto|]. split.
      * constructor; rewrite arrived_snoc, A0; cbn [app]; [constructor|]. exists [], []. split; auto. rewrite delivered_app, D0. cbn [delivered flat_map app]. split; [|reflexivity].
        intros y. destruct (says env key y). reflexivity.
      * apply W0. exact W1.
    + specialize (V4 x). destruct (conn_get (ho_conns h) x) as [c|]; [|rewrite in_app_iff; cbn; intuition]. destruct V4 as (I & R & S). split; [apply in_app_iff; auto|]. split.
      * eapply recv_same; eauto; [rewrite arrived_snoc, app_nil_r; auto|apply unbroken_snoc].
      * destruct S as [S1 S2 S3 S4]. constructor; auto.
        -- destruct S1 as (ws & lost & S1 & F1 & F2). exists ws, lost. rewrite sent_to_app, S1. cbn. rewrite app_nil_r. auto.
        -- intros Y. destruct (S2 Y) as (S5 & S6). rewrite is_shut_app, S5. auto.
        -- rewrite ops_snoc, blocked_snoc. cbn [fst]. destruct (Z.eqb_spec id x); [contradiction|]. exact S4.
Qed.
End Host.
