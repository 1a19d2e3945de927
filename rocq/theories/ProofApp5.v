(** The example programs: the query and the file. *)
From Coq Require Import Permutation.
From Verif Require Import Base LibBase Bits Decimal GoTime Env EntTerm EntPlat Registry Message Timer Session Multipart Server.
From Verif Require Import SpecGeo SpecEntity SpecRange SpecFrame SpecMsg SpecSession SpecMulti SpecTimer SpecServer SpecHost.
From Verif Require Import App SpecApp ProofServer ProofServer3 ProofApp ProofApp2 ProofApp3 ProofApp4.

Lemma requests_in id t f l : In (ORequest id t f) l -> In (t, f) (requests_on id l).
Proof. intros I. unfold requests_on. apply in_flat_map. exists (ORequest id t f). split; auto. rewrite Z.eqb_refl. cbn. auto. Qed.
Lemma in_ops {x : sv_op} {evs l} : In (x, evs) l -> In x (ops_of l).
Proof. intros I. apply (in_map fst) in I. exact I. Qed.
Lemma hears_answer env x n : hears x (answer_content env n) -> is_answer x = true /\ answers x n.
Proof. intros (_ & _ & _ & _ & B). unfold is_answer, answers. rewrite B. split; auto. eexists. split; [reflexivity|]. apply q0104. Qed.
Lemma query_answered key prior ops a tr u id tok e q v now x evs w : app_history key prior ops a tr ->
  tr = u ++ (ORequest id tok e, [SvSend id q]) :: v ++ (ODeliver id now x, evs) :: w ->
  (length (filter is_auth (messages id (ops_of tr))) <= 1)%nat ->
  (forall t m, In (ODeliver id t m) (ops_of v) -> ~ answers m (h_serial (m_hdr q))) ->
  is_answer x = true -> answers x (h_serial (m_hdr q)) ->
  h_id (m_hdr q) = 0x8104 /\ answered_in evs = [SvAnswer id tok x] /\ snd (on_params x) = false.
Proof.
  intros H E LE ND IA AX. pose proof (app_auth _ _ _ _ _ id H) as AU. pose proof (app_runs _ _ _ _ _ H) as RU.
  assert (ONE : (length (requests_on id (ops_of tr)) <= 1)%nat) by lia.
  assert (OPS : ops_of tr = ops_of u ++ [ORequest id tok e] ++ ops_of v ++ ops_of ((ODeliver id now x, evs) :: w)) by (rewrite E; unfold ops_of; rewrite map_app; cbn [map fst app]; rewrite map_app; reflexivity).
  rewrite OPS, !requests_app, !app_length in ONE. cbn [requests_on flat_map] in ONE. rewrite Z.eqb_refl in ONE. cbn [app length] in ONE.
  assert (NU : requests_on id (ops_of u) = []) by (destruct (requests_on id (ops_of u)); [reflexivity|cbn in ONE; lia]).
  assert (NV : requests_on id (ops_of v) = []) by (destruct (requests_on id (ops_of v)); [reflexivity|cbn in ONE; lia]).
  assert (AN : answered_in evs = [SvAnswer id tok x]).
  { eapply answer_reaches; eauto.
    - intros t f p I. exfalso. apply in_app_iff in I. destruct I as [I|I]; apply in_ops, requests_in in I; [rewrite NU in I|rewrite NV in I]; contradiction.
    - intros t f I. apply requests_in in I. rewrite NV in I. contradiction. }
  split.
  - pose proof (app_tame _ _ _ _ _ H) as TM. rewrite OPS in TM. apply Forall_app in TM. destruct TM as (_ & TM). apply Forall_inv in TM. cbn in TM. subst e.
    destruct (runs_exact _ _ _ _ RU) as (_ & X). pose proof (X u _ _ _ E) as EF. cbn [effect] in EF. destruct (connected u id); [|discriminate]. unfold sending in EF. destruct (is_shut u id); [discriminate|]. destruct (blocked _ _); [discriminate|]. injection EF as ->. reflexivity.
  - split; auto. rewrite (app_back _ _ _ _ _ id tok x H); [rewrite IA; reflexivity|].
    assert (I : In (SvAnswer id tok x) (answered_in evs)) by (rewrite AN; cbn; auto). apply filter_In in I. destruct I as (I & _).
    unfold effects. apply in_flat_map. exists (ODeliver id now x, evs). split; auto. rewrite E. apply in_app_iff. right. right. apply in_app_iff. right. left. reflexivity.
Qed.
Lemma file_handled env now id mykey media rest key prior ops a tr : app_history key prior ops a tr ->
  file_ok media -> answers_only rest -> alone (zlen media / 512) id (ops_of tr) -> Forall (foreign (my_file (zlen media / 512))) prior ->
  Forall2 hears (messages id (ops_of tr)) (script env now mykey media rest) ->
  conversation key prior id (ops_of tr) = dialogue key (zlen media / 512) /\
  exists m, calls_for (my_file (zlen media / 512)) (effects tr) = [SvHandle id 3 m] /\
    hears m (0x0801, 3, Some (zlen media / 512, zlen media / 512), E0801 (T0801 (T0800 1024 1 0 13 28) (seen_position env now) (Some (Rdr media false)))).
Proof.
  intros H F R A P HH. split.
  - eapply my_conversation; eauto.
  - eapply handled_file; eauto; [apply app_runs in H; exact H|reflexivity|]. intros b [t m] c E. rewrite (app_pref _ _ _ _ _ H b id t m c E). reflexivity.
Qed.
Lemma my_answer_other env m : h_id (m_hdr m) <> 0x8104 -> my_answer env m = None.
Proof. intros N. unfold my_answer. destruct (Z.eqb_spec (h_id (m_hdr m)) 33028); [contradiction|reflexivity]. Qed.
