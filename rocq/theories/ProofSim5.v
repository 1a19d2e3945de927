(** Every history of Server.v is one of Fine.v: histories. *)
From Verif Require Import Base LibBase Bits Env EntTerm EntPlat Registry Message Timer Session Multipart Server Fine.
From Verif Require Import SpecSession SpecMulti SpecTimer SpecServer SpecFine SpecSim ProofServer ProofFine ProofWorld2 ProofSim ProofSim2 ProofSim3 ProofSim4.

(** ** The sessions of a server are those accepted *)
Definition ids_same (sv sv' : server) : Prop := forall i, obj_get (sv_objs sv') i <> None <-> obj_get (sv_objs sv) i <> None.
Lemma ids_refl sv : ids_same sv sv. Proof. intros i. tauto. Qed.
Lemma ids_trans a b c : ids_same a b -> ids_same b c -> ids_same a c.
Proof. intros A B i. rewrite (B i). apply A. Qed.
Lemma ids_set sv id o : obj_get (sv_objs sv) id <> None -> ids_same sv (set_obj sv id o).
Proof. intros G i. cbn [set_obj sv_objs]. rewrite obj_get_set. destruct (id =? i) eqn:E; [apply Z.eqb_eq in E; subst i; split; intros; [exact G|discriminate]|tauto]. Qed.
Lemma ids_smoved sv sv' id o : obj_get (sv_objs sv) id <> None -> smoved sv sv' id o -> ids_same sv sv'.
Proof. intros G (_ & _ & _ & H) i. rewrite H. destruct (id =? i) eqn:E; [apply Z.eqb_eq in E; subst i; split; intros; [exact G|discriminate]|tauto]. Qed.
Lemma ids_objs sv sv' : sv_objs sv' = sv_objs sv -> ids_same sv sv'.
Proof. intros E i. rewrite E. tauto. Qed.
Lemma ids_send sv id o e sv1 o1 evs : obj_get (sv_objs sv) id <> None -> sv_send sv id o e = (sv1, o1, evs) -> ids_same sv sv1.
Proof. intros G S. apply sv_send_eq in S. destruct S as (-> & -> & _). apply ids_set, G. Qed.
Lemma ids_pass sv id now o m sv' evs : obj_get (sv_objs sv) id <> None -> message_and_dispatch sv id now o m = Ok (sv', evs) -> ids_same sv sv'.
Proof.
  intros G M. unfold message_and_dispatch in M. destruct (session_message _ m) as [[s1 cb]| |]; try discriminate. cbn [bind] in M. unfold dispatch in M. cbn [set_obj sv_handlers sv_timer] in M.
  destruct (load_handler _ _) as [h|]; [destruct (timer_update _ _ _) as [t| |]; try discriminate|]; cbn [bind] in M; inversion M; subst; apply (ids_set sv id _ G).
Qed.
Lemma ids_deliver sv id now o m sv' evs : obj_get (sv_objs sv) id <> None -> deliver sv id now o m = Ok (sv', evs) -> ids_same sv sv'.
Proof.
  intros G E. unfold deliver in E.
  assert (SD : forall sv0 e, sv_objs sv0 = sv_objs sv -> (let '(sv1, _, evs0) := sv_send sv0 id o e in Ok (sv1, evs0)) = Ok (sv', evs) -> ids_same sv sv').
  { intros sv0 e OB X. destruct (sv_send sv0 id o e) as [[sv1 o1] e1] eqn:SS. inversion X; subst. eapply ids_trans; [apply ids_objs, OB|]. eapply ids_send; [|exact SS]; rewrite OB; exact G. }
  destruct (m_body m) as [|x|b]; try exact (SD sv _ eq_refl E). destruct (negb (sv_auto sv) || _); [eapply ids_pass; eauto|]. destruct b; try (eapply ids_pass; eauto; fail).
  destruct (h_packet (m_hdr m)) as [[sum sq]|]; [|discriminate]. match type of E with context [a0801_packet ?a] => destruct (a0801_packet a) as [r|]; [|discriminate] end.
  cbv zeta in E. destruct (rdr_fail r); [exact (SD sv _ eq_refl E)|]. destruct (mp_write _ _ _ _) as [f1|er|]; [|exact (SD sv _ eq_refl E)|discriminate].
  destruct (sv_send (set_fs sv f1) id o (reply_entity m result_success)) as [[sv1 o1] e1] eqn:SS. assert (I1 : ids_same sv sv1) by exact (ids_send (set_fs sv f1) _ _ _ _ _ _ G SS).
  destruct (negb (sq =? sum)); [inversion E; subst; exact I1|]. destruct (is_full f1 _) as [full| |]; try discriminate. cbn [bind] in E. destruct (negb full); [inversion E; subst; exact I1|].
  destruct (mp_merge f1 _) as [[c f2]|er|]; [|inversion E; subst; exact I1|discriminate].
  match type of E with (do (_, _) <- ?X ; _) = _ => destruct X as [[sv2 e2]| |] eqn:MD; try discriminate end. cbn [bind] in E. inversion E; subst sv2 evs.
  eapply ids_trans; [exact I1|]. exact (ids_pass (set_fs sv1 f2) _ _ _ _ _ _ (proj2 (I1 id) G) MD).
Qed.
Lemma ids_close sv id : ids_same sv (fst (close_session sv id)).
Proof. unfold close_session. destruct (obj_get (sv_objs sv) id) as [o|] eqn:G; [|apply ids_refl]. destruct (so_closed o); [apply ids_refl|]. apply ids_set. congruence. Qed.
Lemma ids_timeouts ids : forall sv, ids_same sv (fst (timeouts_loop sv ids)).
Proof.
  induction ids as [|id ids IH]; intros sv; cbn [timeouts_loop]; [apply ids_refl|]. unfold handle_read_timeout. destruct (get_session sv id).
  - pose proof (ids_close sv id) as C. destruct (close_session sv id) as [sv1 e1]. specialize (IH sv1). destruct (timeouts_loop sv1 ids). eapply ids_trans; eauto.
  - specialize (IH sv). destruct (timeouts_loop sv ids). exact IH.
Qed.
Lemma ids_broadcast e ids : forall sv, ids_same sv (fst (broadcast_loop sv ids e)).
Proof.
  induction ids as [|id ids IH]; intros sv; cbn [broadcast_loop]; [apply ids_refl|]. destruct (obj_get (sv_objs sv) id) as [o|] eqn:G; [|apply IH].
  destruct (sv_send sv id o e) as [[sv1 o1] e1] eqn:SS. assert (I1 : ids_same sv sv1) by (eapply ids_send; [|exact SS]; congruence). specialize (IH sv1). destruct (broadcast_loop sv1 ids e). eapply ids_trans; eauto.
Qed.
Lemma step_ids sv op sv' evs : sv_step sv op = Ok (sv', evs) -> forall i, obj_get (sv_objs sv') i <> None <-> obj_get (sv_objs sv) i <> None \/ In i (connects [op]).
Proof.
  intros ST. assert (W : (forall id now, op <> OConnect id now) -> ids_same sv sv' -> forall i, obj_get (sv_objs sv') i <> None <-> obj_get (sv_objs sv) i <> None \/ In i (connects [op])).
  { intros N I i. rewrite (I i). split; [auto|]. intros [X|X]; [exact X|]. destruct op; cbn in X; try contradiction. exfalso. eapply N. reflexivity. }
  destruct op as [id now|id|id now m|id|id|now|e|id e|id tok e|msgid h|id b]; cbn [sv_step] in ST; [|apply W; [intros; discriminate|]..].
  - cbn [set_obj set_reg sv_timer] in ST. destruct (timer_update _ _ _) as [t| |]; try discriminate. cbn [bind] in ST. inversion ST; subst. intros i. cbn [set_timer set_reg set_obj sv_objs connects flat_map app In]. rewrite obj_get_set.
    destruct (id =? i) eqn:E; [apply Z.eqb_eq in E; subst i; split; [auto|discriminate]|]. apply Z.eqb_neq in E. tauto.
  - destruct (obj_get (sv_objs sv) id) as [o|] eqn:G; inversion ST; subst; [|apply ids_refl]. destruct (so_closed o); [apply ids_refl|apply ids_set; congruence].
  - destruct (obj_get (sv_objs sv) id) as [o|] eqn:G; [|inversion ST; subst; apply ids_refl]. eapply ids_deliver; [rewrite G; discriminate|exact ST].
  - inversion ST as [X]. rewrite <- (f_equal fst X : _ = sv'). apply ids_close.
  - destruct (obj_get (sv_objs sv) id) as [o|] eqn:G; [|inversion ST; subst; apply ids_refl]. destruct (_ && _ && _); [|inversion ST; subst; apply ids_refl].
    unfold handle_close in ST. cbn [set_obj set_reg sv_timer sv_reg] in ST. destruct (timer_remove _ _) as [t| |]; try discriminate. cbn [bind] in ST. inversion ST; subst. apply (ids_set sv id). congruence.
  - destruct (timer_check _ _) as [[t keys]| |]; try discriminate. cbn [bind] in ST. inversion ST as [X]. rewrite <- (f_equal fst X : _ = sv'). apply (ids_timeouts keys (set_timer sv t)).
  - pose proof (ids_broadcast e (sv_reg sv) sv) as B. destruct (broadcast_loop sv (sv_reg sv) e) as [sv1 e1]. inversion ST; subst. exact B.
  - destruct (obj_get (sv_objs sv) id) as [o|] eqn:G; [|inversion ST; subst; apply ids_refl]. destruct (sv_send sv id o e) as [[sv1 o1] e1] eqn:SS. inversion ST; subst. eapply ids_send; [|exact SS]; congruence.
  - destruct (obj_get (sv_objs sv) id) as [o|] eqn:G; [|inversion ST; subst; apply ids_refl]. inversion ST as [X]. unfold sv_request in X. destruct (sv_send sv id o e) as [[sv1 o1] e1] eqn:SS.
    assert (I1 : ids_same sv sv1) by (eapply ids_send; [|exact SS]; congruence). assert (G1 : obj_get (sv_objs sv1) id <> None) by (apply I1; congruence).
    destruct e1 as [|[] [|]]; inversion X; subst; try exact I1. eapply ids_trans; [exact I1|apply ids_set, G1].
  - inversion ST; subst. apply ids_objs; reflexivity.
  - destruct (obj_get (sv_objs sv) id) as [o|] eqn:G; inversion ST; subst; [apply ids_set; congruence|apply ids_refl].
Qed.

(** ** Histories *)
Lemma connects_app a b : connects (a ++ b) = connects a ++ connects b.
Proof. unfold connects. apply flat_map_app. Qed.
Lemma run_simulated ops : forall pre sv s name added sv' tr, sim name added sv s -> quiet s -> (forall i, obj_get (sv_objs sv) i <> None <-> In i (connects pre)) ->
  (forall i, added i = true <-> In (OAddCb i) pre) -> orderly (pre ++ ops) -> sv_run sv ops = Ok (sv', tr) ->
  exists fops s' name', does name' s fops s' (sights tr) /\ agree (fi_toks s) name name' /\ fi_toks s <= fi_toks s'.
Proof.
  induction ops as [|op ops IH]; intros pre sv s name added sv' tr SM Q IDS ADD ORD RUN; cbn [sv_run] in RUN.
  - inversion RUN; subst. exists [], s, name. split; [apply does_nil|]. split; [apply agree_refl|lia].
  - destruct (sv_step sv op) as [[sv1 e1]| |] eqn:ST; try discriminate. cbn [bind] in RUN. destruct (sv_run sv1 ops) as [[sv2 tr2]| |] eqn:R2; try discriminate. cbn [bind] in RUN. inversion RUN; subst sv2 tr; clear RUN.
    assert (RD : ready sv added op).
    { pose proof (ORD pre op ops eq_refl) as O1. destruct op as [id now|id|id now m|id|id|now|e|id e|id tok e|msgid h|id b]; cbn [ready]; try exact Logic.I.
      - assert (N : obj_get (sv_objs sv) id = None) by (destruct (obj_get (sv_objs sv) id) eqn:G; [|reflexivity]; destruct O1; apply IDS; congruence).
        split; [exact N|]. destruct (added id) eqn:A; [|reflexivity]. apply ADD in A. apply in_split in A. destruct A as (a & b & ->).
        specialize (ORD a (OAddCb id) (b ++ OConnect id now :: ops)). rewrite <- app_assoc in ORD. destruct (ORD eq_refl) as [C _]. destruct O1. rewrite connects_app. apply in_or_app. auto.
      - destruct O1 as [C N]. split; [apply IDS, C|]. destruct (added id) eqn:A; [|reflexivity]. apply ADD in A. contradiction.
      - destruct O1 as [A RC]. split; [|split; [apply ADD, A|exact RC]]. apply IDS. apply in_split in A. destruct A as (a & b & ->).
        specialize (ORD a (OAddCb id) (b ++ ODeliver id now m :: ops)). rewrite <- app_assoc in ORD. destruct (ORD eq_refl) as [C _]. rewrite connects_app. apply in_or_app. auto.
      - apply IDS, O1.
      - apply IDS, O1. }
    destruct (step_simulated name added sv s op sv1 e1 SM Q RD ST) as (f1 & s1 & name1 & D1 & SM1 & Q1 & AG1 & L1).
    destruct (IH (pre ++ [op]) sv1 s1 name1 (added_by op added) sv' tr2 SM1 Q1) as (f2 & s2 & name2 & D2 & AG2 & L2).
    + intros i. rewrite (step_ids _ _ _ _ ST i), connects_app, in_app_iff, IDS. tauto.
    + intros i. rewrite in_app_iff, <- ADD. destruct op; cbn [added_by In]; split; intros X; try (destruct X as [X|[X|[]]]; try discriminate; exact X); auto.
      * apply orb_true_iff in X. destruct X as [X|X]; [apply Z.eqb_eq in X; subst; auto|auto].
      * destruct X as [-> |[X|[]]]; [apply orb_true_r|injection X as ->; rewrite Z.eqb_refl; reflexivity].
    + rewrite <- app_assoc. exact ORD.
    + exact R2.
    + exists (f1 ++ f2), s2, name2. split; [|split; [|lia]].
      * cbn [sights flat_map fst snd]. eapply does_app; [|exact D2|exact L2]. destruct D1 as (ev & X1 & X2 & X3). exists ev. split; [exact X1|]. split; [exact X2|].
        intros nm A. apply X3. intros t T. rewrite (A t T). apply AG2, T.
      * intros t T. rewrite (AG2 t) by lia. apply AG1, T.
Qed.
Theorem simulated_by_goroutines o prior ops tr : runs o prior ops tr -> orderly ops ->
  exists evs name, happens (opt_auto o) (keepalive o) evs /\ flat_map (sight_of name) evs = sights tr.
Proof.
  intros (sv & sv' & (f & outs & _ & _ & NS) & _ & RUN) ORD.
  assert (SV : sv = Server (opt_auto o) [] (timer_new (keepalive o)) f [] []).
  { unfold new_server in NS. unfold keepalive. replace (0 <? opt_keepalive o) with (negb (opt_keepalive o <=? 0)) by lia. destruct (opt_keepalive o <=? 0); cbn [negb]; (destruct (opt_key o) as [bits|]; [destruct (negb _); [discriminate|]|]); injection NS as <-; reflexivity. }
  subst sv.
  destruct (run_simulated ops [] (Server (opt_auto o) [] (timer_new (keepalive o)) f [] []) (fine_init (opt_auto o) (keepalive o)) (fun t => t) (fun _ => false) sv' tr) with (6 := RUN) as (fops & s' & name & (evs & R & FR & L) & _).
  - constructor; cbn; try reflexivity; try (eexists; reflexivity); try constructor; try (intros; contradiction); intros; exact Logic.I.
  - split; reflexivity.
  - intros i. cbn. tauto.
  - intros i. cbn. split; [discriminate|contradiction].
  - exact ORD.
  - exists evs, name. split; [exists fops, s'; auto|]. apply L. intros t _. reflexivity.
Qed.
