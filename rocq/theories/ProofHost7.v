(** The whole process: what is sent gets written. *)
From Verif Require Import Base LibBase Bits LibBits Env EntPlat Registry Message Codec Timer Session Multipart Server Host.
From Verif Require Import SpecGeo SpecEntity SpecMsg SpecStream SpecSession SpecMulti SpecTimer SpecServer.
From Verif Require Import ProofStream ProofStream2 ProofMsg ProofMsg2 ProofServer ProofServer2 ProofServer3 ProofServer4 ProofServer6 ProofServer7 ProofHost ProofHost2 ProofHost3 ProofHost4 ProofHost5 ProofHost6.
From Verif Require Import SpecHost.

(** ** What is written *)
Lemma written_prefix env key o prior ops h tr id : hruns env key o prior ops h tr ->
  exists ws, is_prefix ws (sent_to id (inner tr)) /\ Forall2 (frame_of env) ws (wire id tr).
Proof.
  intros (sv & S & K & L & R). destruct (runs_hinv _ _ _ _ _ _ _ _ S K L R) as (V & O). pose proof (hv_conn _ _ _ _ _ _ _ V id) as H. destruct (conn_get (ho_conns h) id) as [c|].
  - destruct H as (_ & _ & [(ws & lost & E & F & _) _ _ _]). exists ws. split; auto. rewrite E. eexists. reflexivity.
  - destruct H as (_ & _ & W). exists []. rewrite W. split; [eexists; reflexivity|constructor].
Qed.
Lemma sending_alive env T id W c : is_shut T id = false -> send_ok env id T W c -> cn_sending c = true.
Proof. intros S [_ D _ _]. destruct (cn_sending c); auto. destruct (D eq_refl). congruence. Qed.
Lemma outstanding env key o prior ops h tr id : hruns env key o prior ops h tr -> is_shut (inner tr) id = false ->
  (length (sent_to id (inner tr)) <= length (wire id tr) + 25)%nat /\
  (In id (accepted ops) -> blocked (ops_of (inner tr)) id = true -> length (wire id tr) + 24 <= length (sent_to id (inner tr)))%nat.
Proof.
  intros (sv & S & K & L & R) SH. destruct (runs_hinv _ _ _ _ _ _ _ _ S K L R) as (V & O). pose proof (hv_conn _ _ _ _ _ _ _ V id) as H. destruct (conn_get (ho_conns h) id) as [c|].
  - destruct H as (_ & _ & SO). pose proof (sending_alive _ _ _ _ _ SH SO) as A. destruct SO as [(ws & lost & E & F & Q) _ RM FU]. rewrite (Q A) in E. cbn [app] in E. pose proof (ProofBody2.forall2_len _ _ _ F) as LW. rewrite E, !app_length.
    unfold in_flight. split; [destruct (cn_flight c); cbn [length]; lia|]. rewrite FU. unfold full. intros _ X. apply Nat.eqb_eq in X. lia.
  - destruct H as (NI & _ & W). assert (E : sent_to id (inner tr) = []).
    { destruct (sent_to id (inner tr)) as [|m l] eqn:E; auto. exfalso. apply NI. rewrite <- (hv_acc _ _ _ _ _ _ _ V). destruct V as [(_ & X & LG & _) _ _ _]. apply (sent_connected _ _ _ _ id m X LG). rewrite E. cbn. auto. }
    rewrite E, W. split; [cbn; lia|]. intros X. exfalso. apply NI. rewrite O. exact X.
Qed.
(** ** Chances for the send loop *)
Definition pending (c : conn) : list message := in_flight c ++ cn_queue c.
Lemma idle_flush env key id rnds : forall h, (forall c, conn_get (ho_conns h) id = Some c -> cn_flight c = None /\ (cn_sending c = true -> cn_queue c = [])) ->
  host_run env key h (flush id rnds) = Ok (h, map (fun op => (op, [])) (flush id rnds)).
Proof.
  induction rnds as [|r rnds IH]; intros h H; [reflexivity|]. cbn [flush flat_map app host_run map]. fold (flush id rnds).
  assert (T : host_step env key h (HTake id) = Ok (h, [])).
  { cbn [host_step]. unfold take. destruct (conn_get (ho_conns h) id) as [c|]; auto. destruct (H c eq_refl) as (F & Q). rewrite F. destruct (cn_sending c); auto. rewrite (Q eq_refl). reflexivity. }
  assert (W : host_step env key h (HWrite id r None) = Ok (h, [])).
  { cbn [host_step]. unfold write. destruct (conn_get (ho_conns h) id) as [c|]; auto. destruct (H c eq_refl) as (F & Q). rewrite F. reflexivity. }
  rewrite T. cbn [bind]. rewrite W. cbn [bind]. rewrite (IH h H). reflexivity.
Qed.
Lemma records_served evs : Forall records evs -> sent_to 0 (served evs) = [] /\ effects (served evs) = [].
Proof.
  intros F. assert (E : effects (served evs) = []). { induction F as [|ev evs (i & b & ->) F IH]; auto. }
  split; auto. rewrite sent_to_eq, E. reflexivity.
Qed.
Lemma records_writes evs id : Forall records evs -> writes id evs = [].
Proof. intros F. induction F as [|ev evs (i & b & ->) F IH]; auto. Qed.
Lemma records_same T evs id : Forall records evs -> sent_to id (T ++ served evs) = sent_to id T /\ is_shut (T ++ served evs) id = is_shut T id.
Proof.
  intros F. destruct (records_served evs F) as (_ & E). rewrite sent_to_app, is_shut_app, sent_to_eq. unfold is_shut at 2. rewrite (sent_to_eq id (served evs)), E. cbn. rewrite app_nil_r, orb_false_r, <- sent_to_eq. auto.
Qed.
Section Host.
Variables (env : Env) (key : option Z) (o : options) (prior : list mop) (sv0 : server).
Hypothesis KEY : key_ok env key.
Notation hinv := (hinv env key o prior sv0).
(** Taking makes the first waiting message the one being sent. *)
Lemma take_first tr h id c m p : hinv tr h -> conn_get (ho_conns h) id = Some c -> cn_sending c = true -> pending c = m :: p ->
  exists h1 evs c1, host_step env key h (HTake id) = Ok (h1, evs) /\ hinv (tr ++ [(HTake id, evs)]) h1 /\ Forall records evs /\
  conn_get (ho_conns h1) id = Some c1 /\ cn_sending c1 = true /\ cn_flight c1 = Some m /\ cn_queue c1 = p /\ cn_pub c1 = cn_pub c.
Proof.
  intros V G SE P. destruct (hstep_take env key o prior sv0 tr h id V) as (h1 & evs & E & V1). change (take h id) with (host_step env key h (HTake id)) in E.
  exists h1, evs. pose proof (step_causes _ _ _ _ _ _ E) as C. cbn [causes] in C. unfold pending, in_flight in P. cbn [host_step] in E. pose proof E as E0. unfold take in E. rewrite G, SE in E. destruct (cn_flight c) as [m0|] eqn:F.
  - cbn [app] in P. injection P as P1 P2. subst m0 p. injection E as E1 E2. subst h1 evs. exists c. cbn [host_step]. auto 10.
  - cbn [app] in P. rewrite P in E. cbv zeta in E. destruct (sv_run _ _) as [[sv2 t]| |]; try discriminate. cbn [bind] in E. injection E as <- <-. cbn [set_conn ho_conns] in *.
    exists (with_send c p (Some m) true). rewrite conn_get_set, Z.eqb_refl. cbn [host_step]. auto 10.
Qed.
Lemma write_step tr h id c m r : hinv tr h -> conn_get (ho_conns h) id = Some c -> cn_flight c = Some m ->
  match msg_encode env None 0 m with
  | Ok (d, _) => exists h1, host_step env key h (HWrite id r None) = Ok (h1, [HWire id d]) /\ hinv (tr ++ [(HWrite id r None, [HWire id d])]) h1 /\
      conn_get (ho_conns h1) id = Some (with_send c (cn_queue c) None (cn_sending c))
  | Err _ => exists h1 evs, host_step env key h (HWrite id r None) = Ok (h1, evs) /\ hinv (tr ++ [(HWrite id r None, evs)]) h1 /\ does (OClose id) evs /\
      exists q, conn_get (ho_conns h1) id = Some (with_send c q None false)
  | Panic => host_step env key h (HWrite id r None) = Panic
  end.
Proof.
  intros V G F. destruct (in_conn env key o prior sv0 _ _ _ _ V G) as (I & R & S).
  assert (PM : plain_msg m).
  { destruct S as [(ws & lost & S1 & _) _ _ _]. destruct V as [V1 _ _ _]. eapply (sent_connected (opt_auto o) (keepalive o) prior (inner tr) id); [apply V1|apply V1|]. rewrite S1. unfold in_flight. rewrite F, !in_app_iff. cbn. auto. }
  assert (W : host_step env key h (HWrite id r None) = match msg_encode env None 0 m with
     | Ok (d, _) => Ok (set_conn h id (with_send c (cn_queue c) None (cn_sending c)), [HWire id d])
     | Err _ => perform (set_conn h id (with_send c (cn_queue c) None false)) (OClose id)
     | Panic => Panic end).
  { cbn [host_step]. unfold write. rewrite G, F, send_plain_msg by auto. unfold codec_send. destruct (msg_encode env None 0 m) as [[d m']| |]; reflexivity. }
  destruct (hstep_write env key o prior sv0 tr h id r None V) as [(h1 & evs & E & V1)|(E & _)]; change (write env h id r None) with (host_step env key h (HWrite id r None)) in E.
  - destruct (msg_encode env None 0 m) as [[d m']|e|].
    + rewrite W in E. injection E as <- <-. eexists. split; [exact W|]. split; auto. cbn [set_conn ho_conns]. rewrite conn_get_set, Z.eqb_refl. reflexivity.
    + rewrite W. rewrite W in E. exists h1, evs. split; auto. split; auto. apply perform_shape in E. destruct E as (D & es & E). split; auto. rewrite E, fold_enqueue. cbn [set_conn ho_conns]. rewrite conn_get_set, Z.eqb_refl. cbn [option_map]. eexists. reflexivity.
    + congruence.
  - destruct (msg_encode env None 0 m) as [[d m']|e|]; auto; [congruence|].
    rewrite W in E. exfalso. destruct (perform_ok o prior sv0 (inner tr) (set_conn h id (with_send c (cn_queue c) None false)) (OClose id)) as (sv' & es & q & PO & _); [apply V|exact Logic.I|]. cbv zeta in PO. congruence.
Qed.
Lemma does_close T id evs : exact (opt_auto o) (keepalive o) prior (T ++ served evs) -> In id (connects (ops_of T)) -> does (OClose id) evs -> sent_to id (T ++ served evs) = sent_to id T /\ is_shut (T ++ served evs) id = true.
Proof.
  intros X C (es & q & -> & F). cbn [served flat_map app] in *. change (flat_map _ q) with (served q) in *. destruct (records_served q F) as (_ & E).
  pose proof (X T (OClose id) es (served q) eq_refl) as EF. split; [|eapply close_shuts; eauto].
  rewrite sent_to_app. rewrite (sent_to_eq id (_ :: _)). unfold effects in *. cbn [flat_map snd]. rewrite E, app_nil_r. cbn [effect] in EF. subst es. unfold shut_if. destruct (open T id); cbn; apply app_nil_r.
Qed.
Lemma flush_all id rnds : forall tr h c, hinv tr h -> conn_get (ho_conns h) id = Some c -> cn_sending c = true -> is_shut (inner tr) id = false -> (length (pending c) <= length rnds)%nat ->
  (exists h' tr' W, host_run env key h (flush id rnds) = Ok (h', tr') /\ is_shut (inner (tr ++ tr')) id = false /\
     sent_to id (inner (tr ++ tr')) = sent_to id (inner tr) /\ wire id (tr ++ tr') = wire id tr ++ W /\ Forall2 (frame_of env) (pending c) W) \/
  exists ps m rest, pending c = ps ++ m :: rest /\
    ((exists e h' tr' W, msg_encode env None 0 m = Err e /\ host_run env key h (flush id rnds) = Ok (h', tr') /\ is_shut (inner (tr ++ tr')) id = true /\
       sent_to id (inner (tr ++ tr')) = sent_to id (inner tr) /\ wire id (tr ++ tr') = wire id tr ++ W /\ Forall2 (frame_of env) ps W) \/
     msg_encode env None 0 m = Panic /\ host_run env key h (flush id rnds) = Panic).
Proof.
  assert (NIL : forall f : list host_op, inner (map (fun op => (op, [])) f) = []) by (induction f; auto).
  assert (NIW : forall f : list host_op, wire id (map (fun op => (op, [])) f) = []) by (induction f; auto).
  assert (IA : forall a b, inner (a ++ b) = inner a ++ inner b) by (intros; apply flat_map_app).
  assert (WA : forall a b, wire id (a ++ b) = wire id a ++ wire id b) by (intros; unfold wire, writes; rewrite !flat_map_app; reflexivity).
  induction rnds as [|r rnds IH]; intros tr h c V G SE SH LN.
  - left. exists h, [], []. rewrite !app_nil_r. cbn [length] in LN. destruct (pending c); [|cbn in LN; lia]. auto 10.
  - destruct (pending c) as [|m p] eqn:P.
    + left. exists h, (map (fun op => (op, [])) (flush id (r :: rnds))), []. rewrite app_nil_r, IA, WA, NIL, NIW, !app_nil_r.
      assert (Q : cn_flight c = None /\ cn_queue c = []). { unfold pending, in_flight in P. destruct (cn_flight c); [discriminate|]. auto. }
      split; [apply idle_flush; intros c0 G0; assert (c0 = c) by congruence; subst c0; destruct Q; auto|].
      auto 10.
    + destruct (take_first tr h id c m p V G SE P) as (h1 & e1 & c1 & E1 & V1 & RC & G1 & SE1 & F1 & Q1 & PB). cbn [flush flat_map app host_run]. fold (flush id rnds). rewrite E1. cbn [bind].
      destruct (records_same (inner tr) e1 id RC) as (ST1 & SH1). pose proof (records_writes e1 id RC) as W1.
      pose proof (write_step _ _ _ _ _ r V1 G1 F1) as WS. destruct (msg_encode env None 0 m) as [[d m']|e|] eqn:ME.
      * destruct WS as (h2 & E2 & V2 & G2). rewrite E2. cbn [bind].
        set (c2 := with_send c1 (cn_queue c1) None (cn_sending c1)) in *.
        assert (P2 : pending c2 = p). { unfold pending, in_flight, c2. cbn. exact Q1. }
        assert (I2 : inner ((tr ++ [(HTake id, e1)]) ++ [(HWrite id r None, [HWire id d])]) = inner tr ++ served e1). { rewrite !inner_snoc. cbn. apply app_nil_r. }
        assert (W2 : wire id ((tr ++ [(HTake id, e1)]) ++ [(HWrite id r None, [HWire id d])]) = wire id tr ++ [d]). { rewrite !wire_snoc, W1. cbn. rewrite Z.eqb_refl, app_nil_r. reflexivity. }
        destruct (IH _ _ _ V2 G2) as [(h' & tr' & W & A1 & A3 & A4 & A5 & A6)|(ps & m0 & rest & B1 & B2)].
        -- exact SE1.
        -- rewrite I2, SH1. exact SH.
        -- rewrite P2. cbn [length] in LN. lia.
        -- left. rewrite A1. cbn [bind]. rewrite I2, W2 in *. exists h', ((HTake id, e1) :: (HWrite id r None, [HWire id d]) :: tr'), (d :: W). rewrite <- !app_assoc in *. cbn [app] in *. rewrite ST1 in A4. rewrite P2 in A6.
           split; auto. split; auto. split; auto. split; auto. constructor; auto. exists m'. exact ME.
        -- right. exists (m :: ps), m0, rest. rewrite P2 in B1. rewrite B1. split; auto. destruct B2 as [(e & h' & tr' & W & A1 & A2 & A3 & A4 & A5 & A6)|(A1 & A2)].
           ++ left. exists e, h', ((HTake id, e1) :: (HWrite id r None, [HWire id d]) :: tr'), (d :: W). rewrite A2. cbn [bind]. rewrite I2, W2 in *. rewrite <- !app_assoc in *. cbn [app] in *. rewrite ST1 in A4.
              split; auto. split; auto. split; auto. split; auto. split; auto. constructor; auto. exists m'. exact ME.
           ++ right. rewrite A2. auto.
      * destruct WS as (h2 & e2 & E2 & V2 & D & (q & G2)). rewrite E2. cbn [bind]. right. exists [], m, p. split; auto. left.
        assert (IN : In id (connects (ops_of (inner tr ++ served e1)))).
        { pose proof (in_conn env key o prior sv0 _ _ _ _ V1 G1) as (I & _). rewrite <- (hv_acc _ _ _ _ _ _ _ V1), inner_snoc in I. exact I. }
        destruct (does_close (inner tr ++ served e1) id e2) as (ST2 & SH2); auto.
        { destruct V2 as [(_ & X & _) _ _ _]. rewrite !inner_snoc in X. exact X. }
        rewrite idle_flush by (intros c0 G0; assert (c0 = with_send c1 q None false) by congruence; subst c0; cbn; split; [reflexivity|discriminate]). cbn [bind].
        exists e, h2, ((HTake id, e1) :: (HWrite id r None, e2) :: map (fun op => (op, [])) (flush id rnds)), [].
        change (tr ++ (HTake id, e1) :: (HWrite id r None, e2) :: ?l) with (tr ++ [(HTake id, e1); (HWrite id r None, e2)] ++ l).
        rewrite !IA, !WA, NIL, NIW, !app_nil_r. cbn [inner flat_map snd]. rewrite app_nil_r, app_assoc, SH2, ST2, ST1.
        replace (wire id [(HTake id, e1); (HWrite id r None, e2)]) with (@nil bytes); [rewrite app_nil_r; auto 10|].
        unfold wire. cbn [flat_map snd]. rewrite app_nil_r. unfold writes. rewrite flat_map_app. fold (writes id e1). fold (writes id e2). rewrite W1. destruct D as (es & q0 & -> & FR). cbn. symmetry. exact (records_writes q0 id FR).
      * right. exists [], m, p. split; auto. right. rewrite WS. auto.
Qed.
End Host.

(** ** Everything sent is written, unless something cannot be *)
Lemma flush_legal ops id rnds : hlegal ops -> hlegal (ops ++ flush id rnds).
Proof.
  intros L pre p post E. induction rnds as [|r rnds IH] using rev_ind in pre, p, post, E |- *.
  - cbn in E. rewrite app_nil_r in E. eapply L; eauto.
  - unfold flush in *. rewrite flat_map_app in E. cbn [flat_map app] in E. destruct post as [|y post] using rev_ind.
    + change [HTake id; HWrite id r None] with ([HTake id] ++ [HWrite id r None]) in E. rewrite !app_assoc in E. apply app_inj_tail in E. destruct E as (_ & <-). exact Logic.I.
    + clear IHpost. change (pre ++ p :: post ++ [y]) with (pre ++ (p :: post) ++ [y]) in E. change [HTake id; HWrite id r None] with ([HTake id] ++ [HWrite id r None]) in E. rewrite !app_assoc in E. apply app_inj_tail in E. destruct E as (E & _).
      destruct post as [|z post] using rev_ind.
      * apply app_inj_tail in E. destruct E as (_ & <-). exact Logic.I.
      * clear IHpost. change (pre ++ p :: post ++ [z]) with (pre ++ (p :: post) ++ [z]) in E. rewrite !app_assoc in E. apply app_inj_tail in E. destruct E as (E & _). eapply IH. exact E.
Qed.
Lemma flushed env key o prior ops h tr id rnds : hruns env key o prior ops h tr -> In id (accepted ops) -> is_shut (inner tr) id = false -> (25 <= length rnds)%nat ->
  let sent := sent_to id (inner tr) in
  (exists h' tr', hruns env key o prior (ops ++ flush id rnds) h' (tr ++ tr') /\ is_shut (inner (tr ++ tr')) id = false /\
     sent_to id (inner (tr ++ tr')) = sent /\ Forall2 (frame_of env) sent (wire id (tr ++ tr'))) \/
  exists ws m rest, sent = ws ++ m :: rest /\
    ((exists e h' tr', msg_encode env None 0 m = Err e /\ hruns env key o prior (ops ++ flush id rnds) h' (tr ++ tr') /\ is_shut (inner (tr ++ tr')) id = true /\
       sent_to id (inner (tr ++ tr')) = sent /\ Forall2 (frame_of env) ws (wire id (tr ++ tr'))) \/
     msg_encode env None 0 m = Panic /\ host_run env key h (flush id rnds) = Panic).
Proof.
  intros (sv & S & K & L & R) I SH LN. cbv zeta. destruct (runs_hinv _ _ _ _ _ _ _ _ S K L R) as (V & O). pose proof (hv_conn _ _ _ _ _ _ _ V id) as H. destruct (conn_get (ho_conns h) id) as [c|] eqn:G.
  2:{ exfalso. apply H. rewrite O. exact I. }
  destruct H as (_ & _ & SO). pose proof (sending_alive _ _ _ _ _ SH SO) as A. destruct SO as [(ws & lost & E & F & Q) _ RM FU]. rewrite (Q A) in E. cbn [app] in E. fold (pending c) in E.
  assert (LP : (length (pending c) <= length rnds)%nat). { unfold pending, in_flight. rewrite app_length. destruct (cn_flight c); cbn [length]; lia. }
  destruct (flush_all env key o prior sv id rnds tr h c V G A SH LP) as [(h' & tr' & W & A1 & A2 & A3 & A4 & A5)|(ps & m & rest & B1 & B2)].
  - left. exists h', tr'. split; [|split; [auto|split; [auto|]]].
    + exists sv. split; auto. split; auto. split; [apply flush_legal; auto|]. rewrite (host_run_app _ _ _ _ _ _ _ R), A1. reflexivity.
    + rewrite A4, E. apply Forall2_app; auto.
  - right. exists (ws ++ ps), m, rest. rewrite E, B1, <- app_assoc. split; auto. destruct B2 as [(e & h' & tr' & W & A1 & A2 & A3 & A4 & A5 & A6)|B2]; [|auto]. left. exists e, h', tr'. split; auto. split; [|split; [auto|split; [congruence|]]].
    + exists sv. split; auto. split; auto. split; [apply flush_legal; auto|]. rewrite (host_run_app _ _ _ _ _ _ _ R), A2. reflexivity.
    + rewrite A5. apply Forall2_app; auto.
Qed.
Lemma frame_fun env ms : forall ds ds', Forall2 (frame_of env) ms ds -> Forall2 (frame_of env) ms ds' -> ds = ds'.
Proof. induction ms; intros ds ds' F G; inversion F; inversion G; subst; auto. destruct H1 as (m1 & E1). destruct H6 as (m2 & E2). f_equal; [congruence|auto]. Qed.
Lemma sent_frames env ms : forall rnds ds, length rnds = length ms -> Forall2 (fun mr d => codec_send env None (snd mr) None (fst mr) = Ok d) (combine ms rnds) ds -> Forall2 (frame_of env) ms ds.
Proof.
  induction ms as [|m ms IH]; intros [|r rnds] ds N F; try discriminate; cbn [combine] in F; inversion F; subst; constructor; [|eapply IH; eauto].
  cbn [fst snd] in H1. unfold codec_send in H1. change (msg_encode env None r m) with (msg_encode env None 0 m) in H1. destruct (msg_encode env None 0 m) as [[d m']| |] eqn:E; cbn [bind] in H1; try discriminate. injection H1 as <-. exists m'. exact E.
Qed.
(** A terminal at the other end hears what was sent. *)
Lemma platform_to_terminal env key o prior ops h tr id rnds rs : hruns env key o prior ops h tr -> In id (accepted ops) -> is_shut (inner tr) id = false -> (25 <= length rnds)%nat ->
  Forall2 (travels env None None) (sent_to id (inner tr)) rs ->
  exists h' tr', hruns env key o prior (ops ++ flush id rnds) h' (tr ++ tr') /\ sent_to id (inner (tr ++ tr')) = sent_to id (inner tr) /\
  forall cs tail, concat cs = concat (wire id (tr ++ tr')) -> reads_ok cs -> quiet_tail tail -> receive_all (S (length rs)) env None [] (map RData cs ++ tail) = (rs, ending tail).
Proof.
  intros H I SH LN T. destruct (end_to_end env None None _ rs (repeat 0 (length (sent_to id (inner tr)))) T) as (ds & F & RC); [apply repeat_length|].
  apply sent_frames in F; [|apply repeat_length]. destruct (flushed _ _ _ _ _ _ _ id rnds H I SH LN) as [(h' & tr' & A1 & A2 & A3 & A4)|(ws & m & rest & E & B)].
  - exists h', tr'. split; auto. split; auto. rewrite (frame_fun env _ _ _ A4 F). exact RC.
  - exfalso. assert (X : exists d, frame_of env m d). { rewrite E in F. apply Forall2_app_inv_l in F. destruct F as (l1 & l2 & _ & F & _). inversion F; subst. eauto. }
    destruct X as (d & m' & X). destruct B as [(e & _ & _ & B & _)|(B & _)]; congruence.
Qed.
Lemma terminal_to_platform env key o prior a b h tr id fs ms : hruns env key o prior (a ++ b) h tr -> arrived id b = [] -> unbroken id (a ++ b) ->
  Forall2 (good_frame env key) fs ms -> arrived id a = concat (map around fs) -> (3 * length (arrived id a) < moves id b)%nat -> delivered id (inner tr) = ms.
Proof.
  intros H AB U F A M. destruct (good_until env key Waiting fs ms F) as (G & MG). assert (MA : manageable (arrived id a)) by (rewrite A; exact MG).
  destruct (heard_all _ _ _ _ _ _ _ _ id H AB MA U M) as (D & _). rewrite D, A. unfold says. rewrite G. reflexivity.
Qed.
