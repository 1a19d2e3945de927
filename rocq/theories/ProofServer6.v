(** The server: closing, callbacks, options, messages from the wire. *)
From Coq Require Import Sorted Permutation.
From Verif Require Import Base LibBase Bits LibBits Env EntTerm EntPlat Registry Message Timer Session Multipart Server.
From Verif Require Import SpecFrame SpecGeo SpecEntity SpecRange SpecMsg SpecSession SpecMulti SpecTimer SpecServer.
From Verif Require Import LibMulti ProofMulti ProofMulti2 ProofMulti3 ProofTimer2 ProofMsg ProofMsg2 ProofServer ProofServer2 ProofServer3 ProofServer4.

(** ** Closing *)
Lemma closings_app id a b : closings id (a ++ b) = (closings id a + closings id b)%nat.
Proof. unfold closings. rewrite filter_app, app_length. reflexivity. Qed.
Lemma closings_none id evs : (forall i, ~ In (SvClosed i) evs) -> closings id evs = O /\ gones id evs = false.
Proof.
  intros N. split.
  - unfold closings. induction evs as [|ev evs IH]; [reflexivity|]. cbn. destruct ev; try (apply IH; intros i I; apply (N i); cbn; auto). exfalso. apply (N id0). cbn. auto.
  - destruct (gones id evs) eqn:G; auto. unfold gones in G. apply existsb_exists in G. destruct G as (ev & I & G). destruct ev; try discriminate. exfalso. apply (N id0). auto.
Qed.
Lemma closed_once mg ka prior tr id : exact mg ka prior tr -> closings id (effects tr) = if is_gone tr id then 1%nat else O.
Proof.
  induction tr as [|[op evs] tr IH] using rev_ind; intros X; [reflexivity|]. rewrite effects_snoc, closings_app, is_gone_snoc, IH by (eapply exact_prefix; eauto). pose proof (X tr op evs [] eq_refl) as E. apply effect_kinds in E. destruct E as (_ & E & _).
  destruct (existsb (fun ev => match ev with SvClosed _ => true | _ => false end) evs) eqn:Q.
  - apply existsb_exists in Q. destruct Q as (ev & I & Q). destruct ev; try discriminate. apply E in I. destruct I as (_ & -> & G). cbn. destruct (Z.eqb_spec id0 id) as [->|]; cbn; [rewrite G; reflexivity|]. rewrite orb_false_r. destruct (is_gone tr id); reflexivity.
  - destruct (closings_none id evs) as (C1 & C2).
    { intros i I. assert (Y : existsb (fun ev => match ev with SvClosed _ => true | _ => false end) evs = true) by (apply existsb_exists; exists (SvClosed i); auto). congruence. }
    rewrite C1, C2, orb_false_r. lia.
Qed.
Lemma closed_at_most_once o prior ops tr id : runs o prior ops tr -> (closings id (effects tr) <= 1)%nat.
Proof. intros R. destruct (runs_exact _ _ _ _ R) as (_ & X). rewrite (closed_once _ _ _ _ id X). destruct (is_gone tr id); lia. Qed.
Lemma close_runs o prior ops tr pre id evs post : runs o prior ops tr -> tr = pre ++ (ORunClose id, evs) :: post ->
  (hooked pre id -> is_shut pre id = true -> is_gone pre id = false -> evs = [SvClosed id]) /\ (evs <> [] -> evs = [SvClosed id] /\ hooked pre id /\ is_shut pre id = true /\ is_gone pre id = false).
Proof. intros R E. pose proof (server_exact _ _ _ _ _ _ _ _ R E) as F. cbn [effect] in F. destruct F as [(-> & F)|(-> & F)]; [tauto|]. split; [intros; exfalso; tauto|congruence]. Qed.

Lemma gone_app a b id : is_gone a id = true -> is_gone (a ++ b) id = true.
Proof. unfold is_gone. rewrite effects_app, existsb_app. intros ->. reflexivity. Qed.
Lemma fold_dl_none ka evs : forall f id, f id = None -> (forall u, ~ In (SvRefresh id u) evs) -> fold_left (dl_event ka) evs f id = None.
Proof.
  induction evs as [|ev evs IH]; intros f id F N; auto. cbn [fold_left]. apply IH; [|intros u I; apply (N u); cbn; auto]. destruct ev; cbn [dl_event]; auto; unfold put.
  - destruct (Z.eqb_spec id id0) as [->|]; auto. exfalso. apply (N now). cbn. auto.
  - destruct (id =? id0); auto.
Qed.
Lemma legal_new ops pre o post : legal ops -> ops = pre ++ o :: post -> forall id t, In id (connects (pre ++ [o])) -> ~ In (OConnect id t) post.
Proof.
  intros L E id t I J. apply in_split in J. destruct J as (x & y & ->). assert (Q : ops = (pre ++ o :: x) ++ OConnect id t :: y) by (rewrite E, <- app_assoc; reflexivity).
  apply L in Q. cbn in Q. apply Q. change (o :: x) with ([o] ++ x). rewrite app_assoc. unfold connects in *. rewrite flat_map_app. apply in_app_iff. auto.
Qed.
Lemma runs_full o prior sv ops sv' tr : starts o prior sv -> legal ops -> sv_run sv ops = Ok (sv', tr) -> sinv (opt_auto o) (keepalive o) prior tr sv' /\ ops_of tr = ops /\ exact (opt_auto o) (keepalive o) prior tr.
Proof. intros S L E. destruct (run_exact o prior sv ops S L) as (sv2 & tr2 & E2 & O & V & X). rewrite E2 in E. injection E as <- <-. auto. Qed.
Lemma forgotten o prior sv ops sv' tr a id b : starts o prior sv -> legal ops -> sv_run sv ops = Ok (sv', tr) -> tr = a ++ (ORunClose id, [SvClosed id]) :: b ->
  get_session sv' id = false /\ ((forall t m, ~ In (ODeliver id t m) (ops_of b)) -> map_get (tm_map (sv_timer sv')) id = None).
Proof.
  intros S L E T. destruct (runs_full _ _ _ _ _ _ S L E) as (V & O & X). split.
  - rewrite (registry _ _ _ _ _ _ id S L E). unfold registered. rewrite T. change ((ORunClose id, [SvClosed id]) :: b) with ([(ORunClose id, [SvClosed id])] ++ b). rewrite app_assoc, (gone_app (a ++ [(ORunClose id, [SvClosed id])])), andb_false_r; auto. rewrite is_gone_snoc. cbn. rewrite Z.eqb_refl, orb_true_r. reflexivity.
  - intros N. assert (D : deadlines (keepalive o) tr id = None).
    2:{ pose proof (si_view _ _ _ _ _ V id) as W. rewrite D in W. destruct (map_get _ id); [discriminate|reflexivity]. }
    assert (C : In id (connects (ops_of a ++ [ORunClose id]))).
    { pose proof (X a (ORunClose id) [SvClosed id] b T) as F. cbn [effect] in F. destruct F as [(_ & H & _)|(Q & _)]; [|discriminate]. unfold connects. rewrite flat_map_app. apply in_app_iff. left. apply (hooked_connected _ _ H). }
    assert (NC : forall t, ~ In (OConnect id t) (ops_of b)). { intros t. apply (legal_new ops (ops_of a) (ORunClose id) (ops_of b) L); auto. rewrite <- O, T, ops_app. reflexivity. }
    rewrite T in X |- *. clear T E O V S L C. induction b as [|[op es] b IH] using rev_ind.
    + rewrite deadlines_snoc. cbn. unfold put. rewrite Z.eqb_refl. reflexivity.
    + change (a ++ (ORunClose id, [SvClosed id]) :: b ++ [(op, es)]) with (a ++ ((ORunClose id, [SvClosed id]) :: b) ++ [(op, es)]) in *. rewrite app_assoc in X |- *. rewrite deadlines_snoc.
      rewrite ops_snoc in N, NC. assert (IH' : deadlines (keepalive o) (a ++ (ORunClose id, [SvClosed id]) :: b) id = None) by (apply IH; [eapply exact_prefix; exact X|intros t m I; apply (N t m); apply in_app_iff; auto|intros t I; apply (NC t); apply in_app_iff; auto]).
      pose proof (X _ op es [] eq_refl) as F. apply effect_kinds in F. destruct F as (F & _ & _).
      assert (NR : forall u, ~ In (SvRefresh id u) es). { intros u I. apply F in I. destruct op; try contradiction; destruct I as (-> & ->); [eapply NC|eapply N]; apply in_app_iff; right; cbn; auto. }
      destruct op; try (apply fold_dl_none; assumption). cbn [dl_step]. unfold without_expired. destruct (expired _ _ _); auto.
Qed.

(** ** Callbacks of requests *)
Lemma answers_app tok a b : answers_to tok (a ++ b) = (answers_to tok a + answers_to tok b)%nat.
Proof. unfold answers_to. rewrite filter_app, app_length. reflexivity. Qed.
Lemma answers_of tok evs : answers_to tok evs = answers_to tok (answered_in evs).
Proof. induction evs as [|ev evs IH]; auto. destruct ev; cbn in *; auto. unfold answers_to in *. cbn. destruct (tok0 =? tok); cbn; auto. Qed.
Definition waits (tok : Z) (w : list (Z * request)) : nat := length (filter (fun p => rq_tok (snd p) =? tok) w).
Lemma waits_filter tok g w : (waits tok (filter g w) <= waits tok w)%nat.
Proof. unfold waits. induction w as [|x w IH]; cbn; auto. destruct (g x); cbn; destruct (_ =? tok); cbn; lia. Qed.
Lemma delivery_answer mg prior tr id now m evs : delivery mg prior tr id now m evs -> answered_in evs = [] \/ exists r m', In (id, r) (waiting tr) /\ answers m' (rq_serial r) /\ m_hdr m' = m_hdr m /\ answered_in evs = [SvAnswer id (rq_tok r) m'].
Proof.
  assert (D : forall x e, m_hdr x = m_hdr m -> dispatching tr id now x e -> answered_in e = [] \/ exists r m', In (id, r) (waiting tr) /\ answers m' (rq_serial r) /\ m_hdr m' = m_hdr m /\ answered_in e = [SvAnswer id (rq_tok r) m']).
  { intros x e HX (ans & A & ->). rewrite answered_app. assert (Z : answered_in match handler_of (ops_of tr) (h_id (m_hdr x)) with Some h => [SvRefresh id now; SvHandle id h x] | None => [] end = []) by (destruct (handler_of _ _); reflexivity).
    rewrite Z, app_nil_r. destruct A as [(-> & _)|(r & I & Q & ->)]; [left; reflexivity|]. right. exists r, x. auto. }
  unfold delivery. destruct (has_body m).
  - destruct (part_of mg m) as [[[mf sq] data]|]; [|apply D; reflexivity]. destruct (completes _ _).
    + intros (c & e1 & e2 & _ & -> & S & DD). apply sending_kinds in S. rewrite answered_app. destruct S as (_ & -> & _). apply (D (with_data m c)); auto. unfold with_data. destruct (m_body m) as [| |[]]; reflexivity.
    + intros S. apply sending_kinds in S. tauto.
  - intros S. apply sending_kinds in S. tauto.
Qed.
Lemma waits_in tok w p : In p w -> rq_tok (snd p) = tok -> (1 <= waits tok w)%nat.
Proof. intros I E. unfold waits. apply in_split in I. destruct I as (a & b & ->). rewrite filter_app, app_length. cbn. rewrite E, Z.eqb_refl. cbn. lia. Qed.
Lemma waits_out tok w g : (waits tok w <= 1)%nat -> (exists p, In p w /\ rq_tok (snd p) = tok /\ g p = false) -> waits tok (filter g w) = O.
Proof.
  intros L (p & I & E & G). apply in_split in I. destruct I as (a & b & ->). unfold waits in *. rewrite !filter_app, !app_length in *. cbn [filter] in *. rewrite E, Z.eqb_refl in L. cbn [length] in L. rewrite G.
  pose proof (waits_filter tok g a). pose proof (waits_filter tok g b). unfold waits in *. lia.
Qed.
Lemma answered_once_inv mg ka prior tr tok : exact mg ka prior tr -> legal (ops_of tr) ->
  (answers_to tok (effects tr) + waits tok (waiting tr) <= 1)%nat /\ (~ In tok (asked (ops_of tr)) -> answers_to tok (effects tr) = O /\ waits tok (waiting tr) = O).
Proof.
  induction tr as [|[op evs] tr IH] using rev_ind; intros X L; [cbn; auto|]. rewrite effects_snoc, answers_app, waiting_snoc, ops_snoc, asked_snoc. cbn [fst]. rewrite ops_snoc in L. cbn [fst] in L.
  destruct IH as (I1 & I2); [eapply exact_prefix; eauto|intros p q r E; apply (L p q (r ++ [op])); rewrite E, <- app_assoc; reflexivity|].
  pose proof (X tr op evs [] eq_refl) as E. pose proof (effect_kinds _ _ _ _ _ _ E) as (_ & _ & K). pose proof (L (ops_of tr) op [] eq_refl) as LO.
  assert (P : forall g, (answers_to tok evs = O) -> (answers_to tok (effects tr) + answers_to tok evs + waits tok (filter g (waiting tr)) <= 1)%nat /\
     (~ In tok (asked (ops_of tr)) -> (answers_to tok (effects tr) + answers_to tok evs)%nat = O /\ waits tok (filter g (waiting tr)) = O)).
  { intros g A0. rewrite A0. pose proof (waits_filter tok g (waiting tr)). split; [lia|]. intros N. destruct (I2 N). lia. }
  assert (NA : forall e, e = [] -> answers_to tok e = O) by (intros e ->; reflexivity).
  destruct op; try (cbn [wait_step]; rewrite ?app_nil_r; apply P; rewrite answers_of; apply NA; apply K; fail).
  - cbn [wait_step]. rewrite app_nil_r. cbn [effect] in E. destruct (delivery_answer _ _ _ _ _ _ _ E) as [A|(r & m' & I & _ & _ & A)]; [apply P; rewrite answers_of, A; reflexivity|].
    destruct (Z.eqb_spec (rq_tok r) tok) as [Q|Q].
    + assert (A1 : answers_to tok evs = 1%nat) by (rewrite (answers_of tok evs), A; unfold answers_to; cbn; rewrite Q, Z.eqb_refl; reflexivity). rewrite A1. pose proof (waits_in tok _ _ I Q) as W. split.
      * rewrite waits_out; [lia|lia|]. exists (id, r). split; auto. split; auto. cbn [fst snd]. apply negb_false_iff. apply existsb_exists. exists (SvAnswer id (rq_tok r) m'). split; [|rewrite !Z.eqb_refl; reflexivity].
        assert (J : In (SvAnswer id (rq_tok r) m') (answered_in evs)) by (rewrite A; cbn; auto). apply filter_In in J. tauto.
      * intros N. destruct (I2 N). lia.
    + apply P. rewrite answers_of, A. unfold answers_to. cbn. destruct (Z.eqb_spec (rq_tok r) tok); [contradiction|reflexivity].
  - destruct K as (_ & K). assert (A0 : answers_to tok evs = O) by (rewrite answers_of, K; reflexivity). cbn [legal_op] in LO.
    assert (G : (answers_to tok (effects tr) + answers_to tok evs + waits tok (waiting tr) <= 1)%nat) by lia.
    assert (Q : forall g x, rq_tok (snd x) = tok0 -> (answers_to tok (effects tr) + answers_to tok evs + waits tok (filter g (waiting tr) ++ [x]) <= 1)%nat /\
       (~ In tok (asked (ops_of tr) ++ [tok0]) -> (answers_to tok (effects tr) + answers_to tok evs)%nat = O /\ waits tok (filter g (waiting tr) ++ [x]) = O)).
    { intros g x RX. unfold waits. rewrite filter_app, app_length. fold (waits tok (filter g (waiting tr))). cbn [filter]. rewrite RX. pose proof (waits_filter tok g (waiting tr)). destruct (Z.eqb_spec tok0 tok) as [<-|N]; cbn [length].
      - destruct (I2 LO). split; [lia|]. intros N. exfalso. apply N. apply in_app_iff. cbn. auto.
      - split; [lia|]. intros M. assert (M' : ~ In tok (asked (ops_of tr))) by (intros I; apply M; apply in_app_iff; auto). destruct (I2 M'). lia. }
    assert (R : forall g, (answers_to tok (effects tr) + answers_to tok evs + waits tok (filter g (waiting tr)) <= 1)%nat /\
       (~ In tok (asked (ops_of tr) ++ [tok0]) -> (answers_to tok (effects tr) + answers_to tok evs)%nat = O /\ waits tok (filter g (waiting tr)) = O)).
    { intros g. destruct (P g A0) as (P1 & P2). split; auto. intros M. apply P2. intros I. apply M. apply in_app_iff. auto. }
    cbn [wait_step]. destruct evs as [|[] [|? ?]]; try apply R. apply Q. reflexivity.
Qed.
Lemma answered_once o prior ops tr tok : runs o prior ops tr -> (answers_to tok (effects tr) <= 1)%nat /\ (~ In tok (asked ops) -> answers_to tok (effects tr) = O).
Proof.
  intros R. destruct (runs_exact _ _ _ _ R) as (O & X). assert (L : legal (ops_of tr)) by (rewrite O; destruct R as (? & ? & _ & L & _); exact L).
  destruct (answered_once_inv _ _ _ _ tok X L) as (A & B). rewrite O in B. split; [lia|]. intros N. apply B in N. tauto.
Qed.

(** ** Terminal numbers *)
Lemma addressed o prior ops tr a id u m es b op evs c x : runs o prior ops tr -> tr = a ++ (ODeliver id u m, es) :: b ++ (op, evs) :: c ->
  passes (opt_auto o) (hi_up (history (opt_auto o) prior (ops_of a))) m = true -> (forall t y, ~ In (ODeliver id t y) (ops_of b)) ->
  In (SvSend id x) evs -> h_icc (m_hdr x) = h_icc (m_hdr m).
Proof.
  intros R E P N I. destruct (runs_exact _ _ _ _ R) as (O & X). assert (E2 : tr = (a ++ (ODeliver id u m, es) :: b) ++ (op, evs) :: c) by (rewrite <- app_assoc; exact E).
  pose proof (server_exact _ _ _ _ _ _ _ _ R E2) as F. destruct (send_from _ _ _ _ _ _ _ _ F I) as (_ & -> & _). destruct R as (sv & sv' & _ & L & _).
  assert (LO : legal_op (ops_of a) (ODeliver id u m)). { apply (L _ _ (ops_of (b ++ (op, evs) :: c))). rewrite <- O, E, ops_app. reflexivity. } cbn in LO. destruct LO as (C & RC).
  apply icc_last; auto; [destruct RC as (_ & RC & _); lia|]. intros t J. apply (legal_new ops (ops_of a) (ODeliver id u m) (ops_of (b ++ (op, evs) :: c))) with (id := id) (t := t); auto.
  - rewrite <- O, E, ops_app. reflexivity.
  - unfold connects. rewrite flat_map_app. apply in_app_iff. auto.
  - rewrite ops_app. apply in_app_iff. auto.
Qed.

(** ** Read timeouts, both ways *)
Lemma tick_exact o prior ops tr pre now evs post id : runs o prior ops tr -> tr = pre ++ (OTick now, evs) :: post ->
  In (SvShut id) evs <-> registered pre id = true /\ is_shut pre id = false /\ exists d, deadlines (keepalive o) pre id = Some d /\ d <= now.
Proof.
  intros R E. pose proof (server_exact _ _ _ _ _ _ _ _ R E) as F. cbn [effect] in F. destruct F as (keys & (_ & FK & _) & ->). rewrite in_flat_map. unfold expired in FK. split.
  - intros (k & K & I). destruct (registered pre k && open pre k) eqn:RO; cbn in I; [|contradiction]. destruct I as [I|[]]. injection I as ->. apply andb_true_iff in RO. destruct RO as (RO & OP). unfold open in OP. apply andb_true_iff in OP. destruct OP as (_ & OP). split; auto. split; [destruct (is_shut pre id); auto; discriminate|].
    apply FK in K. destruct (deadlines (keepalive o) pre id) as [d|]; [|discriminate]. exists d. split; auto. lia.
  - intros (RG & SH & d & D & LE). exists id. split; [apply FK; rewrite D; lia|]. unfold open. rewrite RG, SH. unfold registered in RG. apply andb_true_iff in RG. destruct RG as (-> & _). cbn. auto.
Qed.

(** ** Options *)
Lemma options_exact f o : (exists sv, new_server f o = Ok sv) <-> (forall bits, opt_key o = Some bits -> 1017 <= bits <= 1024).
Proof.
  unfold new_server, key_size. destruct (opt_key o) as [bits|].
  - destruct (Z.eqb_spec ((bits + 7) / 8) 128) as [Q|Q]; cbn [negb]; split.
    + intros _ x H. injection H as <-. lia.
    + intros _. eexists. reflexivity.
    + intros (sv & H). discriminate.
    + intros H. exfalso. specialize (H bits eq_refl). lia.
  - split; [discriminate|]. intros _. eexists. reflexivity.
Qed.
Lemma options_keepalive f o sv : new_server f o = Ok sv -> tm_seconds (sv_timer sv) = if 0 <? opt_keepalive o then opt_keepalive o else 60.
Proof.
  unfold new_server. assert (Q : (if opt_keepalive o <=? 0 then 60 else opt_keepalive o) = if 0 <? opt_keepalive o then opt_keepalive o else 60) by (destruct (Z.leb_spec (opt_keepalive o) 0), (Z.ltb_spec 0 (opt_keepalive o)); lia).
  destruct (opt_key o); [destruct (negb _); [discriminate|]|]; intros H; injection H as <-; exact Q.
Qed.

(** ** Messages from the wire *)
Lemma decode_received env key data m : key_ok env key -> bytes_ok data -> msg_decode env key data = Ok m -> received m.
Proof.
  intros K B D. destruct (received_header env key data m B D) as ((P & I & S & PK) & ID & H). unfold received. do 3 (split; [auto|]). split; [|split; auto].
  - destruct (h_packet (m_hdr m)) as [[sum sq]|]; cbn in H; intuition.
  - destruct (delivered env key data m K B D) as [->|(e & -> & E & R)]; auto. split; auto. destruct e; auto. cbn in R.
    destruct R as (R1 & _ & _ & R4). split; [apply R1|]. destruct (a0801_packet _) as [[data0 f]|]; [|contradiction]. cbn in R4. destruct R4 as (_ & ->). eauto.
Qed.
Lemma packet_step o prior ops tr pre id now m evs post : runs o prior ops tr -> tr = pre ++ (ODeliver id now m, evs) :: post ->
  let up := hi_up (history (opt_auto o) prior (ops_of pre)) in
  (passes (opt_auto o) up m = false -> handled evs = []) /\
  (passes (opt_auto o) up m = true -> exists m', m_hdr m' = m_hdr m /\ (part_of (opt_auto o) m = None -> m' = m) /\
     (forall mf sq data, part_of (opt_auto o) m = Some (mf, sq, data) -> exists c, merged (up ++ [MWrite mf sq data]) mf c /\ m' = with_data m c) /\
     handled evs = match handler_of (ops_of pre) (h_id (m_hdr m)) with Some h => [SvHandle id h m'] | None => [] end).
Proof.
  intros R E. pose proof (server_exact _ _ _ _ _ _ _ _ R E) as F. cbn [effect] in F. apply delivery_kinds in F. cbn zeta in *. destruct F as (A & B & _). split.
  - intros P. apply A in P. tauto.
  - intros P. destruct (B P) as (m' & B1 & B2 & B3 & B4 & _). eauto.
Qed.
Lemma broadcast_exact o prior ops tr pre e evs post : runs o prior ops tr -> tr = pre ++ (OBroadcast e, evs) :: post ->
  exists ids blocks, NoDup ids /\ (forall id, In id ids <-> registered pre id = true) /\
    Forall2 (fun id b => sending (opt_auto o) prior pre id e b) ids blocks /\ evs = concat blocks ++ [SvCount (zlen (sends (concat blocks)))].
Proof. intros R E. apply (server_exact _ _ _ _ _ _ _ _ R E). Qed.
Lemma sent_exact o prior ops tr pre op evs post id m : runs o prior ops tr -> tr = pre ++ (op, evs) :: post -> In (SvSend id m) evs ->
  is_shut pre id = false /\ h_icc (m_hdr m) = hi_icc (history (opt_auto o) prior (ops_of pre)) id /\ h_serial (m_hdr m) = serial (sent_on pre id) /\ exists e, m_body m = BEnt e /\ h_id (m_hdr m) = entity_id e.
Proof. intros R E. exact (send_from _ _ _ _ _ _ _ _ (server_exact _ _ _ _ _ _ _ _ R E)). Qed.
