(** The whole process: reading, writing, whole histories. *)
From Verif Require Import Base LibBase Bits Env Registry Message Codec Timer Session Multipart Server Host.
From Verif Require Import SpecGeo SpecEntity SpecMsg SpecStream SpecSession SpecMulti SpecTimer SpecServer.
From Verif Require Import ProofStream ProofStream2 ProofMsg ProofMsg2 ProofServer ProofServer2 ProofServer3 ProofServer4 ProofServer6 ProofServer7 ProofHost ProofHost2.
From Verif Require Import SpecHost.

Section Host.
Variables (env : Env) (key : option Z) (o : options) (prior : list mop) (sv0 : server).
Hypothesis KEY : key_ok env key.
Notation mg := (opt_auto o).
Notation ka := (keepalive o).
Notation core := (core o prior sv0).
Notation hinv := (hinv env key o prior sv0).
Notation recv_ok := (recv_ok env key).
Notation send_ok := (send_ok env).

(** ** Steps that leave the server alone *)
Lemma quiet_inv tr h h' hop evs : hinv tr h -> ho_sv h' = ho_sv h -> served evs = [] ->
  accepted (hops tr ++ [hop]) = accepted (hops tr) -> requested (hops tr ++ [hop]) = requested (hops tr) ->
  (forall id, match conn_get (ho_conns h') id with
    | None => ~ In id (accepted (hops tr)) /\ arrived id (hops tr ++ [hop]) = [] /\ wire id tr ++ writes id evs = []
    | Some c => In id (accepted (hops tr)) /\ recv_ok id (hops tr ++ [hop]) (inner tr) c /\ send_ok id (inner tr) (wire id tr ++ writes id evs) c
    end) -> hinv (tr ++ [(hop, evs)]) h'.
Proof.
  intros [V1 V2 V3 V4] SV S A R C. constructor; rewrite ?inner_snoc, ?hops_snoc, ?S, ?app_nil_r, ?A, ?R, ?SV; auto.
  intros id. specialize (C id). rewrite wire_snoc. exact C.
Qed.
(** Other connections are not concerned. *)
Lemma others tr hop id c : recv_ok id (hops tr) (inner tr) c -> arrived id (hops tr ++ [hop]) = arrived id (hops tr) -> recv_ok id (hops tr ++ [hop]) (inner tr) c.
Proof. intros R A. rewrite <- (app_nil_r (inner tr)). eapply recv_same; eauto. apply unbroken_snoc. Qed.

Lemma in_conn tr h id c : hinv tr h -> conn_get (ho_conns h) id = Some c -> In id (accepted (hops tr)) /\ recv_ok id (hops tr) (inner tr) c /\ send_ok id (inner tr) (wire id tr) c.
Proof. intros V G. pose proof (hv_conn _ _ _ _ _ _ _ V id) as H. rewrite G in H. exact H. Qed.
Lemma send_recv id T W c i b p : send_ok id T W c -> send_ok id T W (with_recv c i b p).
Proof. intros [A B C D]. constructor; auto. Qed.

(** One move of a session that ends in an operation of the server *)
Lemma turn_perform tr h id now r c i b p op : hinv tr h -> conn_get (ho_conns h) id = Some c -> legal_op (ops_of (inner tr)) op ->
  (exists m, op = ODeliver id now m) \/ op = OClose id ->
  (forall X, delivered id X = delivery_of op id -> (op = OClose id -> is_shut (inner tr ++ X) id = true) -> recv_ok id (hops tr ++ [HTurn id now r]) (inner tr ++ X) (with_recv c i b p)) ->
  exists h' evs, perform (set_conn h id (with_recv c i b p)) op = Ok (h', evs) /\ hinv (tr ++ [(HTurn id now r, evs)]) h'.
Proof.
  intros V G L K RC. destruct (in_conn _ _ _ _ V G) as (I & R & S).
  assert (A : forall x, arrived x (hops tr ++ [HTurn id now r]) = arrived x (hops tr)). { intros. rewrite arrived_snoc, app_nil_r. reflexivity. }
  apply perform_inv with (h := h); auto.
  - intros j b' ->. destruct K as [(m & K)|K]; discriminate.
  - intros j n ->. destruct K as [(m & K)|K]; discriminate.
  - rewrite accepted_snoc, app_nil_r. reflexivity.
  - rewrite requested_snoc. destruct K as [(m & ->)| ->]; reflexivity.
  - intros x. cbn [set_conn ho_conns]. rewrite conn_get_set. destruct (Z.eqb_spec id x) as [<-|N].
    + split; auto. split; [eapply send_weak; [|apply send_recv; exact S]; auto|]. exact RC.
    + pose proof (hv_conn _ _ _ _ _ _ _ V x) as H. destruct (conn_get (ho_conns h) x) as [cx|].
      * destruct H as (Ix & Rx & Sx). split; auto. split; [eapply send_weak; [|exact Sx]; auto|]. intros X D _. eapply recv_keep; eauto.
        destruct K as [(m & ->)| ->]; cbn; auto. destruct (Z.eqb_spec id x); [contradiction|reflexivity].
      * rewrite A. exact H.
Qed.
Definition past_ok (tr : htrace) (id : Z) (past : bytes) : Prop :=
  forall x, says env key (past ++ x) = (delivered id (inner tr) ++ fst (says env key x), snd (says env key x)).
Lemma leave tr h id now r c i b past rest : hinv tr h -> conn_get (ho_conns h) id = Some c -> arrived id (hops tr) = past ++ rest -> past_ok tr id past ->
  (exists e, says env key rest = ([], GotErr e)) \/ ~ manageable (arrived id (hops tr)) \/ (exists e, r = Broken e) ->
  exists h' evs, perform (set_conn h id (with_recv c i b Left)) (OClose id) = Ok (h', evs) /\ hinv (tr ++ [(HTurn id now r, evs)]) h'.
Proof.
  intros V G A P W. destruct (in_conn _ _ _ _ V G) as (I & R & S). eapply turn_perform; eauto; [exact Logic.I|].
  intros X D SH. cbn [delivery_of] in D. constructor; rewrite arrived_snoc, app_nil_r; [apply R|]. exists past, rest. split; auto.
  rewrite delivered_app, D, app_nil_r. split; [exact P|]. cbn [cn_at with_recv]. split; [apply SH; reflexivity|].
  destruct W as [W|[W|(e & ->)]]; auto. right. right. intros U. apply (U now e). apply in_app_iff. cbn. auto.
Qed.
Lemma consume_ok tr h id now r c i b p past : hinv tr h -> conn_get (ho_conns h) id = Some c -> arrived id (hops tr) = past ++ b ++ i -> past_ok tr id past ->
  (exists h' evs, consume h id now (with_recv c i b p) (read_from_buffer env key b) = Ok (h', evs) /\ hinv (tr ++ [(HTurn id now r, evs)]) h') \/
  (consume h id now (with_recv c i b p) (read_from_buffer env key b) = Panic /\ snd (says env key (arrived id (hops tr))) = GotPanic).
Proof.
  intros V G A P. destruct (in_conn _ _ _ _ V G) as (I & R & S). destruct (read_from_buffer env key b) as [sc b'] eqn:E. apply rfb_step in E. unfold consume.
  assert (BY : bytes_ok (past ++ b ++ i)). { rewrite <- A. apply R. }
  destruct sc as [m|e| |].
  - left. destruct E as (f & -> & NF & D).
    change (with_recv (with_recv c i (126 :: f ++ 126 :: b') p) (cn_in (with_recv c i (126 :: f ++ 126 :: b') p)) b' AtStart) with (with_recv c i b' AtStart).
    apply turn_perform; auto; [|left; eauto|].
    + cbn [legal_op]. rewrite (hv_acc _ _ _ _ _ _ _ V). split; auto. eapply (decode_received env key (around f)); auto.
      apply bytes_ok_app in BY. destruct BY as (_ & BY). apply bytes_ok_app in BY. destruct BY as (BY & _).
      replace (126 :: f ++ 126 :: b') with (around f ++ b') in BY by (unfold around; cbn; rewrite <- app_assoc; reflexivity). apply bytes_ok_app in BY. apply BY.
    + intros X DX _. cbn [delivery_of] in DX. rewrite Z.eqb_refl in DX. constructor; rewrite arrived_snoc, app_nil_r; [apply R|].
      exists (past ++ 126 :: f ++ [126]), (b' ++ i). split; [rewrite A; rewrite <- !app_assoc; cbn [app]; rewrite <- !app_assoc; reflexivity|]. split; [|reflexivity].
      intros x. rewrite <- app_assoc. rewrite P. cbn [app]. rewrite <- app_assoc. cbn [app]. rewrite (says_frame env key f x m NF D). cbn [fst snd].
      rewrite delivered_app, DX, <- app_assoc. reflexivity.
  - left. change (with_recv (with_recv c i b p) (cn_in (with_recv c i b p)) b' Left) with (with_recv c i b' Left). eapply leave; eauto.
  - left. destruct E as (-> & E). eexists _, _. split; [reflexivity|]. apply quiet_inv with (h := h); auto.
    + rewrite accepted_snoc, app_nil_r. reflexivity.
    + rewrite requested_snoc, app_nil_r. reflexivity.
    + intros x. cbn [set_conn ho_conns writes flat_map]. rewrite conn_get_set, app_nil_r. destruct (Z.eqb_spec id x) as [<-|N].
      * split; auto. split; [|apply send_recv, send_recv; auto]. constructor; rewrite arrived_snoc, app_nil_r; [apply R|]. exists past, (b ++ i). split; auto. split; [exact P|]. cbn [cn_at cn_in cn_buf with_recv]. auto.
      * pose proof (hv_conn _ _ _ _ _ _ _ V x) as H. destruct (conn_get (ho_conns h) x) as [cx|].
        -- destruct H as (Ix & Rx & Sx). split; auto. split; auto. apply others; auto. rewrite arrived_snoc, app_nil_r. reflexivity.
        -- rewrite arrived_snoc, app_nil_r. exact H.
  - right. split; auto. destruct E as (f & q & -> & NF & D). rewrite A, P. rewrite (says_panic env key f q i NF D). reflexivity.
Qed.

Lemma firstn_cons_app {A} n (l : list A) : l = firstn n l ++ skipn n l. Proof. symmetry. apply firstn_skipn. Qed.
Lemma with_recv_id c : with_recv c (cn_in c) (cn_buf c) (cn_at c) = c. Proof. destruct c; reflexivity. Qed.
Lemma wait_inv tr h id now r : hinv tr h -> hinv (tr ++ [(HTurn id now r, [])]) h.
Proof.
  intros V. apply quiet_inv with (h := h); auto; try (rewrite ?accepted_snoc, ?requested_snoc, app_nil_r; reflexivity).
  intros x. cbn [writes flat_map]. rewrite app_nil_r. pose proof (hv_conn _ _ _ _ _ _ _ V x) as H. destruct (conn_get (ho_conns h) x) as [cx|].
  - destruct H as (Ix & Rx & Sx). split; auto. split; auto. apply others; auto. rewrite arrived_snoc, app_nil_r. reflexivity.
  - rewrite arrived_snoc, app_nil_r. exact H.
Qed.
(** The size error stops streams with long runs only. *)
Lemma manageable_suffix a s : manageable (a ++ s) -> manageable s.
Proof.
  unfold manageable. induction a as [|b a IH]; auto. cbn [app SpecStream.runs]. destruct (b =? 126); intros F.
  - inversion F; auto.
  - destruct (runs_nonempty (a ++ s)) as (r & l & E). rewrite E in F. apply IH. rewrite E. inversion F; subst. constructor; auto. rewrite zlen_cons in H1. lia.
Qed.
Lemma too_long ops id buf past d rest : arrived id ops = past ++ (buf ++ d) ++ rest ->
  incomplete buf -> (length d <= 128)%nat -> 65535 < zlen (buf ++ d) -> ~ manageable (arrived id ops).
Proof.
  intros A I L Z0 M. rewrite A, <- app_assoc in M. apply manageable_suffix in M. apply (manageable_open _ _ I) in M. rewrite zlen_app in Z0. unfold zlen in *. lia.
Qed.
Lemma hstep_turn tr h id now r : hinv tr h ->
  (exists h' evs, turn env key h id now r = Ok (h', evs) /\ hinv (tr ++ [(HTurn id now r, evs)]) h') \/
  (turn env key h id now r = Panic /\ snd (says env key (arrived id (hops tr))) = GotPanic).
Proof.
  intros V. unfold turn. destruct (conn_get (ho_conns h) id) as [c|] eqn:G; [|left; eauto using wait_inv].
  destruct (in_conn _ _ _ _ V G) as (I & R & S). destruct R as [B (past & rest & A & P & M)]. destruct (cn_at c) eqn:PH.
  - subst rest. pose proof (consume_ok tr h id now r c (cn_in c) (cn_buf c) AtStart past V G A P) as K. rewrite <- PH, with_recv_id in K. exact K.
  - destruct M as (-> & IC). destruct r as [k|e].
    + destruct (firstn (Nat.max 1 (Nat.min k 128)) (cn_in c)) as [|d0 d] eqn:F; [left; eauto using wait_inv|].
      set (n := Nat.max 1 (Nat.min k 128)) in *. pose proof (firstn_cons_app n (cn_in c)) as SP. rewrite F in SP. cbv zeta.
      assert (A' : arrived id (hops tr) = past ++ (cn_buf c ++ d0 :: d) ++ skipn n (cn_in c)). { rewrite A. rewrite SP at 1. rewrite <- !app_assoc. reflexivity. }
      destruct (65535 <? zlen (cn_buf c ++ d0 :: d)) eqn:Z0.
      * left. change (with_recv (with_recv c (skipn n (cn_in c)) (cn_buf c ++ d0 :: d) InRead) (cn_in (with_recv c (skipn n (cn_in c)) (cn_buf c ++ d0 :: d) InRead)) (cn_buf c ++ d0 :: d) Left)
          with (with_recv c (skipn n (cn_in c)) (cn_buf c ++ d0 :: d) Left).
        eapply leave; eauto. right. left. eapply too_long; eauto; [|lia]. rewrite <- F, firstn_length. lia.
      * apply (consume_ok tr h id now (Avail k) c (skipn n (cn_in c)) (cn_buf c ++ d0 :: d) InRead past V G A' P).
    + left. eapply leave; eauto.
  - left. eauto using wait_inv.
Qed.

(** ** Writing *)
Lemma send_plain_msg pub rnd wr m : plain_msg m -> codec_send env pub rnd wr m = codec_send env None 0 wr m.
Proof.
  intros (e & icc & n & ->). unfold codec_send. cbn [m_hdr h_prop]. change (is_enable_encrypt 0) with false. destruct pub; unfold msg_encode, enc_body; reflexivity.
Qed.
Lemma set_send tr h id c q f s hop evs : hinv tr h -> conn_get (ho_conns h) id = Some c -> served evs = [] ->
  accepted (hops tr ++ [hop]) = accepted (hops tr) -> requested (hops tr ++ [hop]) = requested (hops tr) -> (forall x, arrived x (hops tr ++ [hop]) = arrived x (hops tr)) ->
  (forall x, x <> id -> writes x evs = []) -> send_ok id (inner tr) (wire id tr ++ writes id evs) (with_send c q f s) ->
  hinv (tr ++ [(hop, evs)]) (set_conn h id (with_send c q f s)).
Proof.
  intros V G SV A Q AR W SO. apply quiet_inv with (h := h); auto. intros x. cbn [set_conn ho_conns]. rewrite conn_get_set. destruct (in_conn _ _ _ _ V G) as (I & R & S).
  destruct (Z.eqb_spec id x) as [<-|N].
  - split; auto. split; auto. apply others; auto. destruct R as [R1 R2]. constructor; auto.
  - rewrite W by auto. rewrite app_nil_r, AR. pose proof (hv_conn _ _ _ _ _ _ _ V x) as H. destruct (conn_get (ho_conns h) x) as [cx|]; auto.
    destruct H as (Ix & Rx & Sx). split; auto. split; auto. apply others; auto.
Qed.
Lemma hstep_take tr h id : hinv tr h -> exists h' evs, take h id = Ok (h', evs) /\ hinv (tr ++ [(HTake id, evs)]) h'.
Proof.
  intros V. assert (K : hinv (tr ++ [(HTake id, [])]) h).
  { apply quiet_inv with (h := h); auto; try (rewrite ?accepted_snoc, ?requested_snoc, app_nil_r; reflexivity).
    intros x. cbn [writes flat_map]. rewrite app_nil_r. pose proof (hv_conn _ _ _ _ _ _ _ V x) as H. destruct (conn_get (ho_conns h) x) as [cx|].
    - destruct H as (Ix & Rx & Sx). split; auto. split; auto. apply others; auto. rewrite arrived_snoc, app_nil_r. reflexivity.
    - rewrite arrived_snoc, app_nil_r. exact H. }
  unfold take. destruct (conn_get (ho_conns h) id) as [c|] eqn:G; [|eauto].
  destruct (cn_sending c) eqn:SE; [|eauto]. destruct (cn_flight c) eqn:FL; [eauto|]. destruct (cn_queue c) as [|m q] eqn:QU; [eauto|]. clear K.
  destruct (in_conn _ _ _ _ V G) as (I & R & S). set (c1 := with_send c q (Some m) true). cbv zeta.
  assert (QO : queue_op (ho_conns (set_conn h id c1)) id = [OQueue id (full c1)]). { unfold queue_op. cbn [set_conn ho_conns]. rewrite conn_get_set, Z.eqb_refl. reflexivity. }
  rewrite QO. destruct (core_run o prior sv0 (inner tr) (ho_sv h) [OQueue id (full c1)]) as (sv' & T' & RN & O' & C').
  { apply V. } { apply legal_snoc; [apply V|exact Logic.I]. }
  cbn [set_conn ho_sv ho_conns]. rewrite RN. cbn [bind]. eexists _, _. split; [reflexivity|].
  assert (T'E : T' = [(OQueue id (full c1), [])]).
  { rewrite (quiet_queues o prior (inner tr) T'); [rewrite O'; reflexivity|apply C'|]. rewrite O'. intros op [<-|[]]. eauto. }
  subst T'. clear O'. destruct V as [V1 V2 V3 V4]. constructor; rewrite ?inner_snoc, ?hops_snoc, ?served_sv; cbn [ho_sv ho_conns].
  - exact C'.
  - rewrite ops_snoc, connects_app, accepted_snoc, V2. reflexivity.
  - rewrite ops_snoc, asked_app, requested_snoc, V3. reflexivity.
  - intros x. rewrite conn_get_set, wire_snoc, writes_sv, app_nil_r, accepted_snoc, app_nil_r.
    assert (AR : forall y, arrived y (hops tr ++ [HTake id]) = arrived y (hops tr)) by (intros; rewrite arrived_snoc, app_nil_r; reflexivity).
    destruct (Z.eqb_spec id x) as [<-|N].
    + split; auto. split; [eapply recv_same; eauto; apply unbroken_snoc|]. destruct S as [(ws & lost & S1 & F1 & F2) S2 S3 S4]. constructor.
      * exists ws, lost. rewrite sent_to_app, S1. unfold in_flight, c1. cbn [with_send cn_flight cn_queue cn_sending]. rewrite FL, QU. cbn. rewrite app_nil_r. auto.
      * unfold c1. cbn. discriminate.
      * unfold c1. cbn [with_send cn_queue]. rewrite QU in S3. cbn in S3. lia.
      * rewrite ops_snoc, blocked_snoc. cbn [fst]. rewrite Z.eqb_refl. reflexivity.
    + specialize (V4 x). destruct (conn_get (ho_conns h) x) as [cx|]; [|rewrite AR; auto]. destruct V4 as (Ix & Rx & Sx). split; auto. split; [eapply recv_same; eauto; apply unbroken_snoc|].
      destruct Sx as [(ws & lost & S1 & F1 & F2) S2 S3 S4]. constructor; auto.
      * exists ws, lost. rewrite sent_to_app, S1. cbn. rewrite app_nil_r. auto.
      * intros Y. destruct (S2 Y) as (S5 & S6). rewrite is_shut_app, S5. auto.
      * rewrite ops_snoc, blocked_snoc. cbn [fst]. destruct (Z.eqb_spec id x); [contradiction|]. exact S4.
Qed.
Lemma hstep_write tr h id rnd wr : hinv tr h ->
  (exists h' evs, write env h id rnd wr = Ok (h', evs) /\ hinv (tr ++ [(HWrite id rnd wr, evs)]) h') \/
  (write env h id rnd wr = Panic /\ exists m, In m (sent_to id (inner tr)) /\ ~ tame env m).
Proof.
  intros V. set (hop := HWrite id rnd wr).
  assert (A1 : accepted (hops tr ++ [hop]) = accepted (hops tr)) by (rewrite accepted_snoc, app_nil_r; reflexivity).
  assert (A2 : requested (hops tr ++ [hop]) = requested (hops tr)) by (rewrite requested_snoc, app_nil_r; reflexivity).
  assert (AR : forall y, arrived y (hops tr ++ [hop]) = arrived y (hops tr)) by (intros; rewrite arrived_snoc, app_nil_r; reflexivity).
  assert (K : hinv (tr ++ [(hop, [])]) h).
  { apply quiet_inv with (h := h); auto.
    intros x. cbn [writes flat_map]. rewrite app_nil_r. pose proof (hv_conn _ _ _ _ _ _ _ V x) as H. destruct (conn_get (ho_conns h) x) as [cx|].
    - destruct H as (Ix & Rx & Sx). split; auto. split; auto. apply others; auto.
    - rewrite AR. exact H. }
  unfold write. destruct (conn_get (ho_conns h) id) as [c|] eqn:G; [|left; eauto]. destruct (cn_flight c) as [m|] eqn:FL; [|left; eauto]. clear K.
  destruct (in_conn _ _ _ _ V G) as (I & R & S). pose proof S as [(ws & lost & S1 & F1 & F2) S2 S3 S4].
  assert (IN : In m (sent_to id (inner tr))). { rewrite S1. unfold in_flight. rewrite FL. rewrite !in_app_iff. cbn. auto. }
  assert (SN : cn_sending c = true). { destruct (cn_sending c) eqn:Q; auto. destruct (S2 eq_refl). congruence. }
  assert (PM : plain_msg m). { destruct V as [V1 _ _ _]. eapply sent_connected; eauto; apply V1. }
  assert (FAIL : exists h' evs, perform (set_conn h id (with_send c (cn_queue c) None false)) (OClose id) = Ok (h', evs) /\ hinv (tr ++ [(hop, evs)]) h').
  { apply perform_inv with (h := h); auto; try (intros; discriminate); [exact Logic.I|rewrite app_nil_r; auto|].
    intros x. cbn [set_conn ho_conns]. rewrite conn_get_set. destruct (Z.eqb_spec id x) as [<-|N].
    - split; auto. split.
      + constructor; auto. exists ws, [m]. split; [|split; [auto|cbn; discriminate]]. rewrite S1, (F2 SN). unfold in_flight. rewrite FL. reflexivity.
      + intros X D _. eapply recv_same; eauto. apply unbroken_snoc.
    - pose proof (hv_conn _ _ _ _ _ _ _ V x) as H. destruct (conn_get (ho_conns h) x) as [cx|].
      + destruct H as (Ix & Rx & Sx). split; auto. split; [eapply send_weak; [|exact Sx]; auto|]. intros X D _. eapply recv_same; eauto. apply unbroken_snoc.
      + rewrite AR. exact H. }
  rewrite send_plain_msg by auto. unfold codec_send. destruct (msg_encode env None 0 m) as [[d m']|e|] eqn:E; cbn [bind].
  - destruct wr as [we|]; [left; exact FAIL|].
    + left. eexists _, _. split; [reflexivity|]. apply set_send; auto.
      * intros x N. cbn. destruct (Z.eqb_spec id x); [congruence|reflexivity].
      * cbn [writes flat_map]. rewrite Z.eqb_refl. cbn [app]. constructor; auto.
        -- exists (ws ++ [m]), []. split; [|split; [apply Forall2_app; auto; constructor; [exists m'; auto|constructor]|auto]].
           rewrite S1, (F2 SN). unfold in_flight. rewrite FL. cbn [with_send cn_flight cn_queue]. rewrite <- !app_assoc. reflexivity.
        -- cbn [with_send cn_sending]. congruence.
  - left. exact FAIL.
  - right. split; auto. exists m. split; [exact IN|]. unfold tame. rewrite E. congruence.
Qed.
End Host.
