(** The server: consequences of the exact effects. *)
From Coq Require Import Sorted Permutation.
From Verif Require Import Base LibBase Bits LibBits Env EntTerm EntPlat Registry Message Timer Session Multipart Server.
From Verif Require Import SpecSession ProofSession ProofSession2 ProofSession3.
From Verif Require Import SpecMulti SpecTimer SpecServer LibMulti ProofMulti ProofMulti2 ProofMulti3 ProofTimer ProofTimer2 ProofServer ProofServer2 ProofServer3.

(** ** No crash, exact effects, registry *)
Lemma server_total o prior sv ops : starts o prior sv -> legal ops -> exists sv' tr, sv_run sv ops = Ok (sv', tr) /\ ops_of tr = ops.
Proof. intros S L. destruct (run_exact o prior sv ops S L) as (sv' & tr & R & O & _). eauto. Qed.
Lemma server_exact o prior ops tr pre op evs post : runs o prior ops tr -> tr = pre ++ (op, evs) :: post -> effect (opt_auto o) (keepalive o) prior pre op evs.
Proof. intros R E. apply runs_exact in R. destruct R as (_ & X). eapply X; eauto. Qed.
Lemma registry o prior sv ops sv' tr id : starts o prior sv -> legal ops -> sv_run sv ops = Ok (sv', tr) -> get_session sv' id = registered tr id.
Proof.
  intros S L R. destruct (run_exact o prior sv ops S L) as (sv2 & tr2 & R2 & O & V & _). assert (sv2 = sv' /\ tr2 = tr) by (split; congruence). destruct H; subst. apply (registered_mem _ _ _ tr sv' id V).
Qed.

(** ** Event kinds *)
Lemma sending_kinds mg prior tr id e evs : sending mg prior tr id e evs -> handled evs = [] /\ answered_in evs = [] /\ (forall i u, ~ In (SvRefresh i u) evs) /\ (forall i, ~ In (SvClosed i) evs).
Proof. unfold sending. destruct (is_shut tr id); [|destruct (blocked _ _)]; intros ->; repeat split; cbn; intuition discriminate. Qed.
Lemma handled_app a b : handled (a ++ b) = handled a ++ handled b. Proof. apply filter_app. Qed.
Lemma answered_app a b : answered_in (a ++ b) = answered_in a ++ answered_in b. Proof. apply filter_app. Qed.
Lemma sends_app a b : sends (a ++ b) = sends a ++ sends b. Proof. apply flat_map_app. Qed.
Lemma dispatching_kinds tr id now m evs : dispatching tr id now m evs ->
  handled evs = match handler_of (ops_of tr) (h_id (m_hdr m)) with Some h => [SvHandle id h m] | None => [] end /\ sends evs = [] /\
  (forall i u, In (SvRefresh i u) evs -> i = id /\ u = now) /\ (handler_of (ops_of tr) (h_id (m_hdr m)) <> None -> In (SvRefresh id now) evs) /\ (forall i, ~ In (SvClosed i) evs).
Proof.
  intros (ans & A & ->). assert (Q : handled ans = [] /\ sends ans = [] /\ (forall i u, ~ In (SvRefresh i u) ans) /\ (forall i, ~ In (SvClosed i) ans)).
  { destruct A as [(-> & _)|(r & _ & _ & ->)]; repeat split; cbn; intuition discriminate. }
  destruct Q as (Q1 & Q2 & Q3 & Q4). rewrite handled_app, sends_app, Q1, Q2. destruct (handler_of (ops_of tr) (h_id (m_hdr m))) as [h|]; cbn; repeat split.
  - rewrite in_app_iff in H. destruct H as [H|[H|[H|[]]]]; [apply Q3 in H; contradiction|congruence|discriminate].
  - rewrite in_app_iff in H. destruct H as [H|[H|[H|[]]]]; [apply Q3 in H; contradiction|congruence|discriminate].
  - intros _. rewrite in_app_iff. cbn. auto.
  - intros i. rewrite in_app_iff. intros [H|[H|[H|[]]]]; [apply Q4 in H; contradiction|discriminate|discriminate].
  - rewrite app_nil_r in H. apply Q3 in H. contradiction.
  - rewrite app_nil_r in H. apply Q3 in H. contradiction.
  - congruence.
  - intros i. rewrite app_nil_r. apply Q4.
Qed.
Lemma shut_flat_kinds g keys : let evs := flat_map (fun id => shut_if (g id) id) keys in handled evs = [] /\ answered_in evs = [] /\ (forall i u, ~ In (SvRefresh i u) evs) /\ (forall i, ~ In (SvClosed i) evs).
Proof.
  cbn zeta. induction keys as [|k keys (A & B & C & D)]; cbn [flat_map]; [repeat split; intros; intros []|]. rewrite handled_app, answered_app, A, B. destruct (g k); cbn [shut_if handled answered_in filter app]; repeat split; auto.
  - intros i u [H|H]; [discriminate|eapply C; eauto].
  - intros i [H|H]; [discriminate|eapply D; eauto].
Qed.
Lemma blocks_kinds mg prior tr e ids blocks : Forall2 (fun id b => sending mg prior tr id e b) ids blocks ->
  handled (concat blocks) = [] /\ answered_in (concat blocks) = [] /\ (forall i u, ~ In (SvRefresh i u) (concat blocks)) /\ (forall i, ~ In (SvClosed i) (concat blocks)).
Proof.
  induction 1 as [|id b ids blocks H F (A & B & C & D)]; cbn [concat]; [repeat split; intros; intros []|]. apply sending_kinds in H. destruct H as (H1 & H2 & H3 & H4).
  rewrite handled_app, answered_app, A, B, H1, H2. repeat split; auto.
  - intros i u X. apply in_app_iff in X. destruct X as [X|X]; [eapply H3; eauto|eapply C; eauto].
  - intros i X. apply in_app_iff in X. destruct X as [X|X]; [eapply H4; eauto|eapply D; eauto].
Qed.

(** What a delivery dispatches *)
Lemma delivery_kinds mg prior tr id now m evs : delivery mg prior tr id now m evs ->
  let up := hi_up (history mg prior (ops_of tr)) in let hd := handler_of (ops_of tr) (h_id (m_hdr m)) in
  (passes mg up m = false -> handled evs = [] /\ answered_in evs = [] /\ (forall i u, ~ In (SvRefresh i u) evs)) /\
  (passes mg up m = true -> exists m', m_hdr m' = m_hdr m /\ (part_of mg m = None -> m' = m) /\
     (forall mf sq data, part_of mg m = Some (mf, sq, data) -> exists c, merged (up ++ [MWrite mf sq data]) mf c /\ m' = with_data m c) /\
     handled evs = match hd with Some h => [SvHandle id h m'] | None => [] end /\ (forall i u, In (SvRefresh i u) evs -> i = id /\ u = now) /\ (hd <> None -> In (SvRefresh id now) evs)) /\
  (forall i, ~ In (SvClosed i) evs).
Proof.
  cbn zeta. unfold delivery, passes. destruct (has_body m); cbn [andb].
  - destruct (part_of mg m) as [[[mf sq] data]|].
    + destruct (completes _ _).
      * intros (c & e1 & e2 & M & -> & S & D). apply sending_kinds in S. destruct S as (S1 & S2 & S3 & S4). apply dispatching_kinds in D. destruct D as (D1 & D2 & D3 & D4 & D5).
        assert (HH : m_hdr (with_data m c) = m_hdr m) by (unfold with_data; destruct (m_body m) as [| |[]]; reflexivity). rewrite HH in *.
        split; [discriminate|]. split.
        -- intros _. exists (with_data m c). split; auto. split; [discriminate|]. split; [intros ? ? ? X; injection X as <- <- <-; eauto|]. rewrite handled_app, S1, D1. split; auto. split.
           ++ intros i u X. apply in_app_iff in X. destruct X as [X|X]; [apply S3 in X; contradiction|eauto].
           ++ intros X. apply in_app_iff. auto.
        -- intros i X. apply in_app_iff in X. destruct X as [X|X]; [eapply S4; eauto|eapply D5; eauto].
      * intros S. apply sending_kinds in S. destruct S as (S1 & S2 & S3 & S4). split; [auto|]. split; [discriminate|auto].
    + intros D. apply dispatching_kinds in D. destruct D as (D1 & D2 & D3 & D4 & D5). split; [discriminate|]. split; [|auto]. intros _. exists m. do 2 (split; [auto|]). split; [discriminate|auto].
  - intros S. apply sending_kinds in S. destruct S as (S1 & S2 & S3 & S4). split; [auto|]. split; [discriminate|auto].
Qed.
(** Which effects an operation can have *)
Lemma effect_kinds mg ka prior tr op evs : effect mg ka prior tr op evs ->
  (forall i u, In (SvRefresh i u) evs -> match op with OConnect id t | ODeliver id t _ => i = id /\ u = t | _ => False end) /\
  (forall i, In (SvClosed i) evs -> op = ORunClose i /\ evs = [SvClosed i] /\ is_gone tr i = false) /\
  match op with ODeliver _ _ _ => True | _ => handled evs = [] /\ answered_in evs = [] end.
Proof.
  destruct op; cbn [effect]; intros E; subst.
  - split; [|split]; [intros i u [H|[]]; injection H as -> ->; auto|intros i [H|[]]; discriminate|auto].
  - split; [|split]; cbn; intuition.
  - apply delivery_kinds in E. cbn zeta in E. destruct E as (A & B & C). split; [|split]; [|intros i H; apply C in H; contradiction|auto].
    intros i u H. destruct (passes _ _ m) eqn:P.
    + destruct (B eq_refl) as (m' & _ & _ & _ & _ & X & _). eauto.
    + destruct (A eq_refl) as (_ & _ & X). apply X in H. contradiction.
  - destruct (open tr id); cbn; split; [|split| |split]; cbn; intuition discriminate.
  - destruct E as [(-> & H & S & G)|(-> & _)]; (split; [|split]); cbn; try (intuition discriminate). intros i [X|[]]. injection X as ->. auto.
  - destruct E as (keys & _ & ->). destruct (shut_flat_kinds (fun id => registered tr id && open tr id) keys) as (A & B & C & D). split; [|split]; [intros i u X; eapply C; eauto|intros i X; apply D in X; contradiction|auto].
  - destruct E as (ids & blocks & _ & _ & F & ->). apply blocks_kinds in F. destruct F as (A & B & C & D). rewrite handled_app, answered_app, A, B. split; [|split]; auto.
    + intros i u X. apply in_app_iff in X. destruct X as [X|[X|[]]]; [eapply C; eauto|discriminate].
    + intros i X. apply in_app_iff in X. destruct X as [X|[X|[]]]; [apply D in X; contradiction|discriminate].
  - destruct (connected tr id); [apply sending_kinds in E; destruct E as (A & B & C & D)|subst; cbn; intuition]. split; [|split]; [intros i u X; eapply C; eauto|intros i X; apply D in X; contradiction|auto].
  - destruct (connected tr id); [apply sending_kinds in E; destruct E as (A & B & C & D)|subst; cbn; intuition]. split; [|split]; [intros i u X; eapply C; eauto|intros i X; apply D in X; contradiction|auto].
  - cbn; intuition.
  - cbn; intuition.
Qed.

(** ** Read timeouts *)
Lemma effects_app a b : effects (a ++ b) = effects a ++ effects b. Proof. apply flat_map_app. Qed.
Lemma fold_dl ka evs : forall f id d, fold_left (dl_event ka) evs f id = Some d ->
  (f id = Some d /\ forall u, ~ In (SvRefresh id u) evs) \/ exists u, In (SvRefresh id u) evs /\ d = wrapped u ka.
Proof.
  induction evs as [|ev evs IH] using rev_ind; intros f id d H; [left; auto|]. rewrite fold_left_app in H. cbn [fold_left] in H.
  assert (K : fold_left (dl_event ka) evs f id = Some d -> (forall u, ev <> SvRefresh id u) -> (f id = Some d /\ forall u, ~ In (SvRefresh id u) (evs ++ [ev])) \/ exists u, In (SvRefresh id u) (evs ++ [ev]) /\ d = wrapped u ka).
  { intros X N. apply IH in X. destruct X as [(X & Y)|(u & X & Y)]; [left|right].
    - split; auto. intros u Z. apply in_app_iff in Z. destruct Z as [Z|[Z|[]]]; [eapply Y; eauto|eapply N; eauto].
    - exists u. rewrite in_app_iff. auto. }
  destruct ev; cbn [dl_event] in H; try (apply K; [exact H|discriminate]).
  - unfold put in H. destruct (Z.eqb_spec id id0) as [<-|N]; [|apply K; [exact H|congruence]]. injection H as <-. right. exists now. rewrite in_app_iff. cbn. auto.
  - unfold put in H. destruct (Z.eqb_spec id id0) as [<-|N]; [discriminate|apply K; [exact H|discriminate]].
Qed.
Lemma deadline_last mg ka prior tr id d : exact mg ka prior tr -> deadlines ka tr id = Some d ->
  exists a op evs b u, tr = a ++ (op, evs) :: b /\ In (SvRefresh id u) evs /\ d = wrapped u ka /\ (forall u', ~ In (SvRefresh id u') (effects b)).
Proof.
  induction tr as [|[op evs] tr IH] using rev_ind; intros X D; [discriminate|].
  assert (Xt : exact mg ka prior tr). { intros pre o es post ->. apply (X pre o es (post ++ [(op, evs)])). rewrite <- app_assoc. reflexivity. }
  pose proof (X tr op evs [] eq_refl) as E. apply effect_kinds in E. destruct E as (E & _). rewrite deadlines_snoc in D.
  assert (K : deadlines ka tr id = Some d -> (forall u, ~ In (SvRefresh id u) evs) ->
    exists a op' evs' b u, tr ++ [(op, evs)] = a ++ (op', evs') :: b /\ In (SvRefresh id u) evs' /\ d = wrapped u ka /\ (forall u', ~ In (SvRefresh id u') (effects b))).
  { intros D0 N. destruct (IH Xt D0) as (a & o & es & b & u & -> & I & Du & Nb). exists a, o, es, (b ++ [(op, evs)]), u. rewrite <- app_assoc. do 3 (split; [auto|]).
    intros u' Y. rewrite effects_app in Y. apply in_app_iff in Y. destruct Y as [Y|Y]; [eapply Nb; eauto|]. unfold effects in Y. cbn in Y. rewrite app_nil_r in Y. eapply N; eauto. }
  assert (F : deadlines ka tr id = Some d /\ (forall u, ~ In (SvRefresh id u) evs) \/ exists u, In (SvRefresh id u) evs /\ d = wrapped u ka).
  { destruct op; try (cbn [dl_step] in D; apply fold_dl in D; destruct D as [D|D]; [left|right]; auto; fail).
    cbn [dl_step] in D. unfold without_expired in D. destruct (expired _ _ _); [discriminate|]. left. split; auto. intros u Y. apply E in Y. exact Y. }
  destruct F as [(D0 & N)|(u & I & Du)]; [auto|]. exists tr, op, evs, [], u. repeat split; auto.
Qed.
Lemma tick_shut o prior ops tr pre now evs post id : runs o prior ops tr -> tr = pre ++ (OTick now, evs) :: post -> In (SvShut id) evs ->
  exists a op es b u, pre = a ++ (op, es) :: b /\ In (SvRefresh id u) es /\ wrapped u (keepalive o) <= now /\ (forall u', ~ In (SvRefresh id u') (effects b)).
Proof.
  intros R E I. pose proof (runs_exact _ _ _ _ R) as (_ & X). pose proof (server_exact _ _ _ _ _ _ _ _ R E) as F. cbn [effect] in F. destruct F as (keys & (_ & FK & _) & ->).
  assert (K : In id keys). { apply in_flat_map in I. destruct I as (k & Ik & I). destruct (_ && _); cbn in I; [destruct I as [I|[]]; injection I as ->; auto|contradiction]. }
  apply FK in K. unfold expired in K. destruct (deadlines (keepalive o) pre id) as [d|] eqn:D; [|discriminate].
  assert (Xp : exact (opt_auto o) (keepalive o) prior pre). { intros a op es b ->. apply (X a op es (b ++ (OTick now, flat_map (fun id0 => shut_if (registered (a ++ (op, es) :: b) id0 && open (a ++ (op, es) :: b) id0) id0) keys) :: post)). rewrite E, <- app_assoc. reflexivity. }
  destruct (deadline_last _ _ _ _ _ _ Xp D) as (a & op & es & b & u & H1 & H2 & H3 & H4). exists a, op, es, b, u. repeat split; auto. lia.
Qed.
Lemma ss_app {A} (R : A -> A -> Prop) a b : StronglySorted R (a ++ b) -> forall x y, In x a -> In y b -> R x y.
Proof.
  induction a as [|z a IH]; cbn; [tauto|]. intros S x y [->|Ix] Iy.
  - apply StronglySorted_inv in S. destruct S as (_ & S). rewrite Forall_forall in S. apply S. apply in_app_iff. auto.
  - apply StronglySorted_inv in S. destruct S as (S & _). eauto.
Qed.
Lemma clock_app a b : clock (a ++ b) = clock a ++ clock b. Proof. apply flat_map_app. Qed.
Lemma ops_app a b : ops_of (a ++ b) = ops_of a ++ ops_of b. Proof. apply map_app. Qed.
Lemma wrapped_id u k : ordinary u -> ordinary k -> wrapped u k = u + k.
Proof. unfold ordinary, wrapped. intros. rewrite Z.mod_small by lia. lia. Qed.
Lemma split_two {A} (a b c d : list A) x y : a ++ x :: b = c ++ y :: d -> (a = c /\ x = y /\ b = d) \/ (exists e, c = a ++ x :: e /\ b = e ++ y :: d) \/ (exists e, a = c ++ y :: e /\ d = e ++ x :: b).
Proof.
  revert c. induction a as [|z a IH]; intros [|w c] H; cbn in H.
  - injection H as -> ->. auto.
  - injection H as -> ->. right. left. exists c. auto.
  - injection H as <- <-. right. right. exists a. auto.
  - injection H as <- H. apply IH in H. destruct H as [(-> & -> & ->)|[(e & -> & ->)|(e & -> & ->)]]; [auto|right; left|right; right]; exists e; auto.
Qed.
Lemma kept_alive o prior ops tr a id u m es b now evs c : runs o prior ops tr -> clock_ok o ops -> tr = a ++ (ODeliver id u m, es) :: b ++ (OTick now, evs) :: c ->
  passes (opt_auto o) (hi_up (history (opt_auto o) prior (ops_of a))) m = true -> handler_of (ops_of a) (h_id (m_hdr m)) <> None -> now < u + keepalive o -> ~ In (SvShut id) evs.
Proof.
  intros R (CS & CO & KO) E P H T I. pose proof (runs_exact _ _ _ _ R) as (OP & X).
  assert (RF : In (SvRefresh id u) es). { pose proof (server_exact _ _ _ _ _ _ _ _ R E) as F. cbn [effect] in F. apply delivery_kinds in F. destruct F as (_ & F & _). destruct (F P) as (m' & _ & _ & _ & _ & _ & Q). auto. }
  assert (E2 : tr = (a ++ (ODeliver id u m, es) :: b) ++ (OTick now, evs) :: c) by (rewrite <- app_assoc; exact E).
  destruct (tick_shut _ _ _ _ _ _ _ _ _ R E2 I) as (a' & op & es' & b' & u' & S & RF' & W & N).
  assert (G : u <= u' /\ ordinary u').
  { apply split_two in S. destruct S as [(-> & S & ->)|[(e & -> & ->)|(e & -> & ->)]].
    - injection S as <- <-. assert (F : effect (opt_auto o) (keepalive o) prior a' (ODeliver id u m) es) by (eapply server_exact; eauto). apply effect_kinds in F. apply F in RF'. destruct RF' as (_ & ->). split; [lia|].
      rewrite Forall_forall in CO. apply CO. rewrite <- OP, E, ops_app, clock_app. apply in_app_iff. right. cbn. auto.
    - assert (E3 : tr = (a ++ (ODeliver id u m, es) :: e) ++ (op, es') :: b' ++ (OTick now, evs) :: c) by (rewrite E, <- app_assoc; cbn [app]; rewrite <- app_assoc; reflexivity).
      assert (F : effect (opt_auto o) (keepalive o) prior (a ++ (ODeliver id u m, es) :: e) op es') by (eapply server_exact; eauto). apply effect_kinds in F. apply F in RF'.
      assert (U : In u' (clock [op])) by (destruct op; try contradiction; destruct RF' as (_ & ->); cbn; auto). rewrite <- OP, E3, ops_app, clock_app in CS, CO. split.
      + apply (ss_app _ _ _ CS); [rewrite ops_app, clock_app; apply in_app_iff; right; cbn; auto|]. change (clock (ops_of ((op, es') :: b' ++ (OTick now, evs) :: c))) with (clock ([op] ++ ops_of (b' ++ (OTick now, evs) :: c))). rewrite clock_app. apply in_app_iff. auto.
      + rewrite Forall_forall in CO. apply CO. apply in_app_iff. right. change (clock (ops_of ((op, es') :: b' ++ (OTick now, evs) :: c))) with (clock ([op] ++ ops_of (b' ++ (OTick now, evs) :: c))). rewrite clock_app. apply in_app_iff. auto.
    - exfalso. apply (N u). rewrite effects_app. apply in_app_iff. right. cbn. apply in_app_iff. auto. }
  destruct G as (G1 & G2). rewrite wrapped_id in W; auto. lia.
Qed.

(** ** Dispatch *)
Lemma dispatched_app pre a b : dispatched pre (a ++ b) = dispatched pre a ++ dispatched (pre ++ a) b.
Proof. revert pre. induction a as [|x a IH]; intros pre; cbn [app dispatched]; [rewrite app_nil_r; reflexivity|]. rewrite IH, <- !app_assoc. reflexivity. Qed.
Lemma exact_prefix mg ka prior tr x : exact mg ka prior (tr ++ [x]) -> exact mg ka prior tr.
Proof. intros X pre o es post ->. apply (X pre o es (post ++ [x])). rewrite <- app_assoc. reflexivity. Qed.
Lemma dispatch_all o prior ops tr : runs o prior ops tr -> (forall id now m, In (ODeliver id now m) ops -> part_of (opt_auto o) m = None) -> handled (effects tr) = dispatched [] ops.
Proof.
  intros R W. destruct (runs_exact _ _ _ _ R) as (<- & X). clear R. induction tr as [|[op evs] tr IH] using rev_ind; [reflexivity|].
  rewrite effects_snoc, handled_app, IH; [|intros id now m I; apply (W id now m); rewrite ops_snoc; apply in_app_iff; auto|eapply exact_prefix; eauto].
  rewrite ops_snoc, dispatched_app. cbn [fst app dispatched]. f_equal. rewrite app_nil_r. pose proof (X tr op evs [] eq_refl) as E. pose proof (effect_kinds _ _ _ _ _ _ E) as (_ & _ & K).
  destruct op; try (apply K). cbn [effect] in E. apply delivery_kinds in E. cbn zeta in E. destruct E as (A & B & _).
  assert (PN : part_of (opt_auto o) m = None) by (apply (W id now m); rewrite ops_snoc; apply in_app_iff; cbn; auto). unfold passes in *. rewrite PN, andb_true_r in *.
  destruct (has_body m).
  - destruct (B eq_refl) as (m' & _ & Q & _ & -> & _). rewrite Q by auto. reflexivity.
  - destruct (A eq_refl) as (-> & _). reflexivity.
Qed.
Lemma dispatch_step o prior ops tr pre id now m evs post : runs o prior ops tr -> tr = pre ++ (ODeliver id now m, evs) :: post ->
  let up := hi_up (history (opt_auto o) prior (ops_of pre)) in
  (passes (opt_auto o) up m = false -> handled evs = []) /\
  (passes (opt_auto o) up m = true -> exists m', m_hdr m' = m_hdr m /\ (part_of (opt_auto o) m = None -> m' = m) /\
     handled evs = match handler_of (ops_of pre) (h_id (m_hdr m)) with Some h => [SvHandle id h m'] | None => [] end).
Proof.
  intros R E. pose proof (server_exact _ _ _ _ _ _ _ _ R E) as F. cbn [effect] in F. apply delivery_kinds in F. cbn zeta in *. destruct F as (A & B & _). split.
  - intros P. apply A in P. tauto.
  - intros P. destruct (B P) as (m' & B1 & B2 & _ & B3 & _). eauto.
Qed.
Lemma handled_only o prior ops tr pre op evs post : runs o prior ops tr -> tr = pre ++ (op, evs) :: post -> handled evs <> [] -> exists id now m, op = ODeliver id now m.
Proof.
  intros R E H. pose proof (server_exact _ _ _ _ _ _ _ _ R E) as F. apply effect_kinds in F. destruct F as (_ & _ & F). destruct op; try (destruct F as (F & _); contradiction). eauto.
Qed.
Lemma dispatch_order o prior ops tr pre id now m evs post : runs o prior ops tr -> tr = pre ++ (ODeliver id now m, evs) :: post -> has_body m = true -> part_of (opt_auto o) m = None ->
  exists ans, evs = ans ++ match handler_of (ops_of pre) (h_id (m_hdr m)) with Some h => [SvRefresh id now; SvHandle id h m] | None => [] end /\
    (ans = [] /\ (forall r, In (id, r) (waiting pre) -> ~ answers m (rq_serial r)) \/ exists r, In (id, r) (waiting pre) /\ answers m (rq_serial r) /\ ans = [SvAnswer id (rq_tok r) m]).
Proof.
  intros R E B P. pose proof (server_exact _ _ _ _ _ _ _ _ R E) as F. cbn [effect] in F. unfold delivery in F. rewrite B, P in F. destruct F as (ans & A & ->). eauto.
Qed.

(** ** Unsupported messages *)
Lemma unsupported o prior ops tr pre id now m evs post : runs o prior ops tr -> tr = pre ++ (ODeliver id now m, evs) :: post -> has_body m = false ->
  handled evs = [] /\ answered_in evs = [] /\
  (is_shut pre id = false -> blocked (ops_of pre) id = false ->
   exists icc n, evs = [SvSend id (Message (Header 0x8001 0 icc n None) (BEnt (E8001 (T8001 (h_serial (m_hdr m)) (h_id (m_hdr m)) 3))))]).
Proof.
  intros R E B. pose proof (server_exact _ _ _ _ _ _ _ _ R E) as F. cbn [effect] in F. unfold delivery in F. rewrite B in F. pose proof (sending_kinds _ _ _ _ _ _ F) as (K1 & K2 & _). split; auto. split; auto.
  intros S Q. unfold sending in F. rewrite S, Q in F. subst. do 2 eexists. reflexivity.
Qed.

(** ** Sending *)
Lemma send_from mg ka prior pre op evs id m : effect mg ka prior pre op evs -> In (SvSend id m) evs ->
  is_shut pre id = false /\ h_icc (m_hdr m) = hi_icc (history mg prior (ops_of pre)) id /\ h_serial (m_hdr m) = serial (sent_on pre id) /\ exists e, m_body m = BEnt e /\ h_id (m_hdr m) = entity_id e.
Proof.
  intros E I. assert (S : forall x e b, sending mg prior pre x e b -> In (SvSend id m) b -> is_shut pre id = false /\ h_icc (m_hdr m) = hi_icc (history mg prior (ops_of pre)) id /\ h_serial (m_hdr m) = serial (sent_on pre id) /\ exists e, m_body m = BEnt e /\ h_id (m_hdr m) = entity_id e).
  { intros x e b H Q. unfold sending in H. destruct (is_shut pre x) eqn:SH; [subst; destruct Q|]. destruct (blocked _ x); subst; destruct Q as [Q|[]]; [discriminate|]. injection Q as <- <-. cbn. repeat split; auto. eauto. }
  assert (D : forall i u x b, dispatching pre i u x b -> In (SvSend id m) b -> False).
  { intros i u x b H Q. apply dispatching_kinds in H. destruct H as (_ & H & _). assert (X : In (id, m) (sends b)) by (unfold sends; apply in_flat_map; exists (SvSend id m); cbn; auto). rewrite H in X. destruct X. }
  destruct op; cbn [effect] in E; subst.
  - destruct I as [I|[]]; discriminate.
  - destruct I.
  - unfold delivery in E. destruct (has_body _); [|eauto]. destruct (part_of _ _) as [[[mf sq] data]|]; [|exfalso; eauto]. destruct (completes _ _); [|eauto].
    destruct E as (c & e1 & e2 & _ & -> & S1 & D1). apply in_app_iff in I. destruct I as [I|I]; [eauto|exfalso; eauto].
  - destruct (open _ _); [destruct I as [I|[]]; discriminate|destruct I].
  - destruct E as [(-> & _)|(-> & _)]; [destruct I as [I|[]]; discriminate|destruct I].
  - destruct E as (keys & _ & ->). apply in_flat_map in I. destruct I as (k & _ & I). destruct (_ && _); [destruct I as [I|[]]; discriminate|destruct I].
  - destruct E as (ids & blocks & _ & _ & F & ->). apply in_app_iff in I. destruct I as [I|[I|[]]]; [|discriminate]. clear D. induction F; cbn [concat] in I; [destruct I|]. apply in_app_iff in I. destruct I as [I|I]; [|auto]. eauto.
  - destruct (connected _ _); [eauto|subst; destruct I].
  - destruct (connected _ _); [eauto|subst; destruct I].
  - destruct I.
  - destruct I.
Qed.
Lemma icc_last mg prior pre id u m e b : passes mg (hi_up (history mg prior (ops_of pre))) m = true -> 0 < h_icc (m_hdr m) -> (forall t x, ~ In (ODeliver id t x) (ops_of b)) ->
  (forall t, ~ In (OConnect id t) (ops_of b)) -> hi_icc (history mg prior (ops_of (pre ++ (ODeliver id u m, e) :: b))) id = h_icc (m_hdr m).
Proof.
  intros P C N1 N2. induction b as [|[op es] b IH] using rev_ind.
  - rewrite ops_snoc, history_snoc. cbn [fst hist_step]. unfold passes in P. apply andb_true_iff in P. destruct P as (-> & P).
    assert (T : forall f, told f id m id = h_icc (m_hdr m)) by (intros f; unfold told; rewrite Z.eqb_refl; replace (0 <? h_icc (m_hdr m)) with true by lia; reflexivity).
    destruct (part_of mg m) as [[[mf sq] data]|]; [rewrite P|]; cbn [hi_icc]; apply T.
  - change (pre ++ (ODeliver id u m, e) :: b ++ [(op, es)]) with (pre ++ ((ODeliver id u m, e) :: b) ++ [(op, es)]). rewrite app_assoc, ops_snoc, history_snoc. cbn [fst].
    assert (IH' : hi_icc (history mg prior (ops_of (pre ++ (ODeliver id u m, e) :: b))) id = h_icc (m_hdr m)).
    { apply IH; [intros t x I; apply (N1 t x)|intros t I; apply (N2 t)]; rewrite ops_snoc; apply in_app_iff; auto. }
    rewrite <- IH'. destruct op; try reflexivity; cbn [hist_step].
    + cbn [hi_icc]. destruct (Z.eqb_spec id id0) as [<-|]; auto. exfalso. apply (N2 now). rewrite ops_snoc. apply in_app_iff. cbn. auto.
    + assert (id0 <> id) by (intros ->; apply (N1 now m0); rewrite ops_snoc; apply in_app_iff; cbn; auto).
      assert (T : forall f, told f id0 m0 id = f id) by (intros f; unfold told; destruct (Z.eqb_spec id id0); [congruence|reflexivity]).
      destruct (has_body m0); auto. destruct (part_of mg m0) as [[[mf sq] data]|]; [destruct (completes _ _)|]; cbn [hi_icc]; auto.
Qed.
