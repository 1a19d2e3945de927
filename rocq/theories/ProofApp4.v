(** The answer to a request reaches its callback. *)
From Verif Require Import Base Decimal GoTime Env EntTerm EntPlat Registry Message Timer Session Multipart Server SpecEntity SpecFrame SpecMsg SpecSession SpecMulti SpecTimer SpecServer ProofServer ProofServer2 ProofServer3 ProofServer4 ProofServer5 ProofServer6.

Lemma no_quote e n : quotes (E0801 e) n -> False. Proof. intros Q. inversion Q. Qed.
Lemma whole_quote m c n : answers (with_data m c) n -> with_data m c = m.
Proof. unfold with_data, answers. destruct m as [h [| |[]]]; cbn; auto. intros (x & X & Q). injection X as <-. apply no_quote in Q. contradiction. Qed.
Lemma part_quote mg m p n : part_of mg m = Some p -> ~ answers m n.
Proof. unfold part_of, answers. intros P (x & X & Q). rewrite X in P. destruct (h_packet _) as [[]|]; [|discriminate]. destruct x; try discriminate. apply no_quote in Q. contradiction. Qed.
Lemma dispatch_answer tr id now x e : dispatching tr id now x e ->
  (forall i t y, In (SvAnswer i t y) e -> i = id /\ y = x /\ exists r, In (id, r) (waiting tr) /\ answers x (rq_serial r) /\ rq_tok r = t) /\
  (answered_in e = [] -> forall r, In (id, r) (waiting tr) -> ~ answers x (rq_serial r)).
Proof.
  intros (ans & A & ->). rewrite answered_app. assert (N : answered_in match handler_of (ops_of tr) (h_id (m_hdr x)) with Some h => [SvRefresh id now; SvHandle id h x] | None => [] end = []) by (destruct (handler_of _ _); reflexivity).
  rewrite N, app_nil_r. split.
  - intros i t y I. apply in_app_iff in I. destruct I as [I|I]; [|destruct (handler_of _ _); cbn in I; intuition discriminate].
    destruct A as [(-> & _)|(r & I1 & Q & ->)]; [contradiction|]. destruct I as [I|[]]. injection I as <- <- <-. eauto 8.
  - destruct A as [(-> & H)|(r & I1 & Q & ->)]; [auto|discriminate].
Qed.
Lemma delivery_answers mg prior tr id now m evs i t y : delivery mg prior tr id now m evs -> In (SvAnswer i t y) evs ->
  i = id /\ y = m /\ exists r, In (id, r) (waiting tr) /\ answers m (rq_serial r) /\ rq_tok r = t.
Proof.
  assert (SE : forall e l, sending mg prior tr id e l -> ~ In (SvAnswer i t y) l).
  { intros e l S I. apply sending_kinds in S. destruct S as (_ & S & _). assert (J : In (SvAnswer i t y) (answered_in l)) by (apply filter_In; auto). rewrite S in J. contradiction. }
  unfold delivery. destruct (has_body m).
  - destruct (part_of mg m) as [[[mf sq] data]|] eqn:PO.
    + destruct (completes _ _).
      * intros (c & e1 & e2 & _ & -> & S & D) I. apply in_app_iff in I. destruct I as [I|I]; [apply SE in S; contradiction|].
        destruct (proj1 (dispatch_answer _ _ _ _ _ D) _ _ _ I) as (E1 & E2 & r & I1 & Q & E3). pose proof (whole_quote _ _ _ Q) as WE. rewrite WE in Q, E2. eauto 8.
      * intros S I. apply SE in S. contradiction.
    + intros D I. eapply (proj1 (dispatch_answer _ _ _ _ _ D)); eauto.
  - intros S I. apply SE in S. contradiction.
Qed.
Lemma delivery_told mg prior tr id now m evs r : delivery mg prior tr id now m evs -> In (id, r) (waiting tr) -> answers m (rq_serial r) ->
  exists s, In (id, s) (waiting tr) /\ answers m (rq_serial s) /\ answered_in evs = [SvAnswer id (rq_tok s) m].
Proof.
  unfold delivery. intros D I A. assert (B : has_body m = true) by (destruct A as (e & E & _); unfold has_body; rewrite E; reflexivity). rewrite B in D.
  destruct (part_of mg m) as [[[mf sq] data]|] eqn:PO; [destruct (part_quote _ _ _ _ PO A)|]. destruct D as (ans & [(-> & H)|(s & I1 & Q & ->)] & ->); [destruct (H r I A)|].
  exists s. rewrite answered_app. split; auto. split; auto. destruct (handler_of _ _); reflexivity.
Qed.
Lemma quotes_one e n n' : quotes e n -> quotes e n' -> n = n'.
Proof. intros Q R. inversion Q; subst; inversion R; reflexivity. Qed.
Lemma answers_one m n n' : answers m n -> answers m n' -> n = n'.
Proof. intros (e & E & Q) (f & F & R). rewrite E in F. injection F as <-. eapply quotes_one; eauto. Qed.
(** Waiting requests were sent. *)
Lemma waiting_sent mg ka prior tr i r : exact mg ka prior tr -> In (i, r) (waiting tr) -> exists t f p, In (ORequest i t f, [SvSend i p]) tr /\ r = Request (entity_id f) (h_serial (m_hdr p)) t.
Proof.
  revert i r. induction tr as [|[op evs] tr IH] using rev_ind; intros i r X I; [contradiction|]. rewrite waiting_snoc in I.
  assert (P : In (i, r) (waiting tr) -> exists t f p, In (ORequest i t f, [SvSend i p]) (tr ++ [(op, evs)]) /\ r = Request (entity_id f) (h_serial (m_hdr p)) t).
  { intros J. destruct (IH i r (exact_prefix _ _ _ _ _ X) J) as (t & f & p & K & E). exists t, f, p. split; auto. apply in_app_iff; auto. }
  destruct op; try (cbn [wait_step] in I; apply filter_In in I; apply P; tauto). pose proof (X tr _ evs [] eq_refl) as E. cbn [wait_step] in I.
  destruct evs as [|[] [|? ?]]; try (apply filter_In in I; apply P; tauto). apply in_app_iff in I. destruct I as [I|[I|[]]]; [apply filter_In in I; apply P; tauto|].
  injection I as <- <-. cbn [effect] in E. assert (id = id0). { destruct (connected _ _); [|discriminate]. unfold sending in E. destruct (is_shut _ _); [discriminate|]. destruct (blocked _ _); [discriminate|]. injection E as <- _. reflexivity. } subst id0.
  do 3 eexists. split; [apply in_app_iff; right; left; reflexivity|reflexivity].
Qed.
Lemma two_waits tok w p q : (waits tok w <= 1)%nat -> In p w -> In q w -> rq_tok (snd p) = tok -> rq_tok (snd q) = tok -> p = q.
Proof.
  unfold waits. intros L I J P Q. assert (I' : In p (filter (fun p => rq_tok (snd p) =? tok) w)) by (apply filter_In; split; [auto|lia]). assert (J' : In q (filter (fun p => rq_tok (snd p) =? tok) w)) by (apply filter_In; split; [auto|lia]).
  destruct (filter _ w) as [|x [|y l]]; [contradiction| |cbn in L; lia]. destruct I' as [<-|[]]. destruct J' as [<-|[]]. reflexivity.
Qed.
Lemma still_waiting mg ka prior a id tok e q b : exact mg ka prior (a ++ (ORequest id tok e, [SvSend id q]) :: b) -> legal (ops_of (a ++ (ORequest id tok e, [SvSend id q]) :: b)) ->
  (forall t f, In (ORequest id t f) (ops_of b) -> entity_id f <> entity_id e) ->
  (forall t m, In (ODeliver id t m) (ops_of b) -> ~ answers m (h_serial (m_hdr q))) ->
  In (id, Request (entity_id e) (h_serial (m_hdr q)) tok) (waiting (a ++ (ORequest id tok e, [SvSend id q]) :: b)).
Proof.
  induction b as [|[op evs] b IH] using rev_ind; intros X L HR HD.
  - rewrite waiting_snoc. cbn [wait_step]. apply in_app_iff. right. left. reflexivity.
  - set (R := (id, Request (entity_id e) (h_serial (m_hdr q)) tok)) in *.
    change (a ++ (ORequest id tok e, [SvSend id q]) :: b ++ [(op, evs)]) with (a ++ ((ORequest id tok e, [SvSend id q]) :: b) ++ [(op, evs)]) in *. rewrite app_assoc in *.
    set (T := a ++ (ORequest id tok e, [SvSend id q]) :: b) in *. pose proof (exact_prefix _ _ _ _ _ X) as X'. rewrite ops_snoc in L. cbn [fst] in L.
    assert (L' : legal (ops_of T)) by (intros u v w E; apply (L u v (w ++ [op])); rewrite E, <- app_assoc; reflexivity).
    assert (IN : In R (waiting T)).
    { apply IH; auto; [intros t f I; apply (HR t f)|intros t m I; apply (HD t m)]; rewrite ops_snoc; apply in_app_iff; auto. }
    clear IH. rewrite waiting_snoc. pose proof (X T op evs [] eq_refl) as E.
    assert (LAST : In op (ops_of (b ++ [(op, evs)]))) by (rewrite ops_snoc; apply in_app_iff; right; left; reflexivity).
    assert (PL : (forall i t y, ~ In (SvAnswer i t y) evs) -> In R (filter (fun p => negb (existsb (fun ev => match ev with SvAnswer id tok _ => (id =? fst p) && (tok =? rq_tok (snd p)) | _ => false end) evs)) (waiting T))).
    { intros N. apply filter_In. split; auto. apply negb_true_iff. destruct (existsb _ evs) eqn:EX; [|reflexivity]. apply existsb_exists in EX. destruct EX as (ev & I & B). destruct ev; try discriminate. apply N in I. contradiction. }
    assert (NN : answered_in evs = [] -> forall i t y, ~ In (SvAnswer i t y) evs).
    { intros N i t y I. assert (J : In (SvAnswer i t y) (answered_in evs)) by (apply filter_In; auto). rewrite N in J. contradiction. }
    pose proof (effect_kinds _ _ _ _ _ _ E) as (_ & _ & KK).
    destruct op; cbn [wait_step]; try (apply PL, NN; apply KK; fail).
    + apply filter_In. split; auto. apply negb_true_iff. destruct (existsb _ evs) eqn:EX; [|reflexivity]. exfalso. apply existsb_exists in EX. destruct EX as (ev & I & B). destruct ev as [|i t y| | | | |]; try discriminate; cbn in B.
      apply andb_true_iff in B. destruct B as (B1 & B2). apply Z.eqb_eq in B1, B2. subst i t. cbn [effect] in E. destruct (delivery_answers _ _ _ _ _ _ _ _ _ _ E I) as (E1 & E2 & r & I1 & Q & E3). subst id0.
      destruct (answered_once_inv _ _ _ _ tok X' L') as (W & _). assert (W1 : (waits tok (waiting T) <= 1)%nat) by lia.
      pose proof (two_waits tok (waiting T) R (id, r) W1 IN I1 eq_refl E3) as EQ. injection EQ as <-. apply (HD now m LAST). exact Q.
    + destruct KK as (_ & KK). destruct evs as [|ev [|? ?]]; [apply PL, NN; reflexivity| |destruct ev; apply PL, NN; exact KK].
      destruct ev; try (apply PL, NN; exact KK). cbn [effect] in E. assert (id0 = id1). { destruct (connected _ _); [|discriminate]. unfold sending in E. destruct (is_shut _ _); [discriminate|]. destruct (blocked _ _); [discriminate|]. injection E as <- _. reflexivity. } subst id1.
      apply in_app_iff. left. apply filter_In. split; auto. cbn [fst snd rq_msgid R]. destruct (Z.eqb_spec id id0) as [<-|]; [|reflexivity]. destruct (Z.eqb_spec (entity_id e) (entity_id e0)) as [Q|]; [|reflexivity]. exfalso. apply (HR _ _ LAST). auto.
Qed.
Lemma answer_reaches o prior ops tr a id tok e q b now x evs c : runs o prior ops tr ->
  tr = a ++ (ORequest id tok e, [SvSend id q]) :: b ++ (ODeliver id now x, evs) :: c ->
  (forall t f p, In (ORequest id t f, [SvSend id p]) (a ++ b) -> h_serial (m_hdr p) <> h_serial (m_hdr q)) ->
  (forall t f, In (ORequest id t f) (ops_of b) -> entity_id f <> entity_id e) ->
  (forall t m, In (ODeliver id t m) (ops_of b) -> ~ answers m (h_serial (m_hdr q))) ->
  answers x (h_serial (m_hdr q)) -> answered_in evs = [SvAnswer id tok x].
Proof.
  intros RU E HS HR HD A. destruct (runs_exact _ _ _ _ RU) as (O & X). assert (L : legal (ops_of tr)) by (rewrite O; destruct RU as (? & ? & _ & L & _); exact L).
  change (a ++ (ORequest id tok e, [SvSend id q]) :: b ++ (ODeliver id now x, evs) :: c) with (a ++ ((ORequest id tok e, [SvSend id q]) :: b) ++ (ODeliver id now x, evs) :: c) in E. rewrite app_assoc in E.
  set (T := a ++ (ORequest id tok e, [SvSend id q]) :: b) in *. pose proof (X T _ _ c E) as EF. cbn [effect] in EF.
  assert (X' : exact (opt_auto o) (keepalive o) prior T). { intros u op es w EE. apply (X u op es (w ++ (ODeliver id now x, evs) :: c)). rewrite E, EE, <- app_assoc. reflexivity. }
  assert (L' : legal (ops_of T)). { intros u v w EE. apply (L u v (w ++ ops_of ((ODeliver id now x, evs) :: c))). rewrite E. unfold ops_of in *. rewrite map_app, EE, <- app_assoc. reflexivity. }
  pose proof (still_waiting _ _ _ a id tok e q b X' L' HR HD) as IN. fold T in IN. destruct (delivery_told _ _ _ _ _ _ _ _ EF IN A) as (s & IS & AS & ->).
  pose proof (answers_one _ _ _ A AS) as SE. cbn [rq_serial] in SE. destruct (waiting_sent _ _ _ _ _ _ X' IS) as (t & f & p & IP & ->). cbn [rq_serial] in SE. unfold T in IP. apply in_app_iff in IP. destruct IP as [IP|[IP|IP]].
  - destruct (HS t f p); [apply in_app_iff; auto|congruence].
  - injection IP as <- <- <-. reflexivity.
  - destruct (HS t f p); [apply in_app_iff; auto|congruence].
Qed.
