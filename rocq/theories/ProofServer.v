(** The server: the invariant that ties the state to the history. *)
From Coq Require Import Sorted Permutation.
From Verif Require Import Base LibBase Bits LibBits Env EntTerm EntPlat Registry Message Timer Session Multipart Server.
From Verif Require Import SpecSession ProofSession ProofSession2.
From Verif Require Import SpecMulti SpecTimer SpecServer LibMulti ProofMulti ProofMulti2 ProofTimer ProofTimer2.

(** ** Lists *)
Lemma obj_get_set l id o x : obj_get (obj_set l id o) x = if id =? x then Some o else obj_get l x.
Proof.
  induction l as [|[i y] l IH]; cbn [obj_set obj_get]; [reflexivity|]. destruct (Z.eqb_spec i id) as [->|N]; cbn [obj_get]; [destruct (id =? x); reflexivity|].
  rewrite IH. destruct (Z.eqb_spec i x) as [->|]; auto. destruct (Z.eqb_spec id x); congruence.
Qed.
Lemma obj_set_set l id o1 o2 : obj_set (obj_set l id o1) id o2 = obj_set l id o2.
Proof.
  induction l as [|[i y] l IH]; cbn [obj_set]; [rewrite Z.eqb_refl; reflexivity|]. destruct (Z.eqb_spec i id) as [->|N]; cbn [obj_set].
  - rewrite Z.eqb_refl. reflexivity.
  - destruct (Z.eqb_spec i id); [contradiction|]. rewrite IH. reflexivity.
Qed.
Lemma mem_in l x : mem l x = true <-> In x l.
Proof. unfold mem. rewrite existsb_exists. split; [intros (y & I & E); assert (y = x) by lia; subst; auto|intros I; exists x; split; auto; lia]. Qed.

(** ** Traces *)
Lemma ops_snoc tr x : ops_of (tr ++ [x]) = ops_of tr ++ [fst x]. Proof. apply map_app. Qed.
Lemma effects_snoc tr o evs : effects (tr ++ [(o, evs)]) = effects tr ++ evs.
Proof. unfold effects. rewrite flat_map_app. cbn. rewrite app_nil_r. reflexivity. Qed.
Lemma connects_snoc ops o : connects (ops ++ [o]) = connects ops ++ match o with OConnect id _ => [id] | _ => [] end.
Proof. unfold connects. rewrite flat_map_app. cbn [flat_map]. rewrite app_nil_r. reflexivity. Qed.
Definition shuts (id : Z) (evs : list sv_event) : bool := existsb (fun ev => match ev with SvShut i => i =? id | _ => false end) evs.
Definition gones (id : Z) (evs : list sv_event) : bool := existsb (fun ev => match ev with SvClosed i => i =? id | _ => false end) evs.
Lemma is_shut_snoc tr o evs id : is_shut (tr ++ [(o, evs)]) id = is_shut tr id || shuts id evs.
Proof. unfold is_shut, shuts. rewrite effects_snoc, existsb_app. reflexivity. Qed.
Lemma is_gone_snoc tr o evs id : is_gone (tr ++ [(o, evs)]) id = is_gone tr id || gones id evs.
Proof. unfold is_gone, gones. rewrite effects_snoc, existsb_app. reflexivity. Qed.
Lemma blocked_snoc ops o id : blocked (ops ++ [o]) id =
  match o with OQueue i b => if i =? id then b else blocked ops id | OConnect i _ => if i =? id then false else blocked ops id | _ => blocked ops id end.
Proof. unfold blocked. rewrite fold_left_app. reflexivity. Qed.
Lemma handler_snoc ops o i : handler_of (ops ++ [o]) i = match o with OAddHandler j h => if j =? i then Some h else handler_of ops i | _ => handler_of ops i end.
Proof. unfold handler_of. rewrite fold_left_app. reflexivity. Qed.
Lemma history_snoc mg prior ops o : history mg prior (ops ++ [o]) = hist_step mg (history mg prior ops) o.
Proof. unfold history. rewrite fold_left_app. reflexivity. Qed.
Lemma deadlines_snoc ka tr x : deadlines ka (tr ++ [x]) = dl_step ka (deadlines ka tr) x.
Proof. unfold deadlines. rewrite fold_left_app. reflexivity. Qed.
Definition cnt (id : Z) (evs : list sv_event) : nat := length (filter (fun p => fst p =? id) (sends evs)).
Lemma sent_snoc tr o evs id : sent_on (tr ++ [(o, evs)]) id = (sent_on tr id + cnt id evs)%nat.
Proof. unfold sent_on, cnt. rewrite effects_snoc. unfold sends. rewrite flat_map_app, filter_app, app_length. reflexivity. Qed.
Lemma waiting_snoc tr x : waiting (tr ++ [x]) = wait_step (waiting tr) x.
Proof. unfold waiting. rewrite fold_left_app. reflexivity. Qed.
(** Events that concern the session's own state *)
Definition touches (id : Z) (evs : list sv_event) : bool := existsb (fun ev => match ev with SvSend i _ => i =? id | SvAnswer i _ _ => i =? id | _ => false end) evs.
Lemma touch_cnt id evs : touches id evs = false -> cnt id evs = O.
Proof.
  induction evs as [|ev evs IH]; auto. cbn [touches existsb]. rewrite orb_false_iff. intros (H1 & H2). specialize (IH H2). unfold cnt, sends in *. destruct ev; cbn; auto. rewrite H1. auto.
Qed.
Lemma filter_all {A} (g : A -> bool) l : (forall x, In x l -> g x = true) -> filter g l = l.
Proof. induction l as [|x l IH]; cbn; intros H; auto. rewrite H by auto. rewrite IH; auto. Qed.
Definition answer_to (p : Z * request) (ev : sv_event) : bool := match ev with SvAnswer id tok _ => (id =? fst p) && (tok =? rq_tok (snd p)) | _ => false end.
Lemma wait_cases w op evs : (exists i tok e id m, op = ORequest i tok e /\ evs = [SvSend id m] /\
    wait_step w (op, evs) = filter (fun p => negb ((fst p =? id) && (rq_msgid (snd p) =? entity_id e))) w ++ [(id, Request (entity_id e) (h_serial (m_hdr m)) tok)]) \/
  wait_step w (op, evs) = filter (fun p => negb (existsb (answer_to p) evs)) w.
Proof. destruct op; auto. destruct evs as [|[] [|]]; auto. left. do 5 eexists. split; [reflexivity|]. split; reflexivity. Qed.
Lemma touch_wait id w op evs r : touches id evs = false -> In (id, r) (wait_step w (op, evs)) <-> In (id, r) w.
Proof.
  intros T. destruct (wait_cases w op evs) as [(i & tok & e & j & m & -> & -> & ->)| ->].
  - cbn in T. rewrite orb_false_r in T. rewrite in_app_iff, filter_In. cbn [fst snd In]. replace (id =? j) with false by lia. cbn [andb negb].
    split; [intros [X|[X|[]]]; [tauto|injection X as -> _; lia]|tauto].
  - rewrite filter_In. split; [tauto|]. intros H. split; auto. apply negb_true_iff. destruct (existsb _ evs) eqn:E; auto. exfalso. apply existsb_exists in E. destruct E as (ev & I & A).
    assert (X : touches id evs = true); [|congruence]. unfold touches. apply existsb_exists. exists ev. split; auto. destruct ev; try discriminate. cbn in A. apply andb_true_iff in A. tauto.
Qed.
Lemma wait_in w op evs id r : In (id, r) (wait_step w (op, evs)) -> In (id, r) w \/ exists i e m, op = ORequest i (rq_tok r) e /\ evs = [SvSend id m].
Proof.
  destruct (wait_cases w op evs) as [(i & tok & e & j & m & -> & -> & ->)| ->].
  - rewrite in_app_iff, filter_In. intros [X|[X|[]]]; [tauto|]. injection X as -> <-. right. eauto.
  - rewrite filter_In. tauto.
Qed.
Lemma wait_plain w op evs : (forall x tok m, ~ In (SvAnswer x tok m) evs) -> match op with ORequest _ _ _ => False | _ => True end -> wait_step w (op, evs) = w.
Proof.
  intros N O. destruct (wait_cases w op evs) as [(i & tok & e & j & m & -> & -> & ->)| ->]; [contradiction|]. apply filter_all. intros p _. apply negb_true_iff.
  destruct (existsb _ evs) eqn:E; auto. exfalso. apply existsb_exists in E. destruct E as (ev & I & A). destruct ev; try discriminate. eapply N; eauto.
Qed.
Lemma asked_snoc ops o : asked (ops ++ [o]) = asked ops ++ match o with ORequest _ tok _ => [tok] | _ => [] end.
Proof. unfold asked. rewrite flat_map_app. cbn [flat_map]. rewrite app_nil_r. reflexivity. Qed.
Definition okreqs (l : list request) : Prop := NoDup (map rq_tok l) /\ NoDup (map rq_msgid l) /\ Forall (fun r => 1 <= rq_serial r) l.
Lemma hooked_snoc tr o evs id : hooked (tr ++ [(o, evs)]) id <-> hooked tr id \/ (o = OAddCb id /\ In id (connects (ops_of tr)) /\ is_shut tr id = false).
Proof.
  split.
  - intros (a & e & b & E & I & S). destruct b as [|x b] using rev_ind.
    + apply app_inj_tail in E. destruct E as (-> & E). injection E as -> ->. auto.
    + change (a ++ (OAddCb id, e) :: b ++ [x]) with (a ++ ((OAddCb id, e) :: b) ++ [x]) in E. rewrite app_assoc in E. apply app_inj_tail in E. destruct E as (-> & _).
      left. exists a, e, b. auto.
  - intros [(a & e & b & -> & I & S)|(-> & I & S)].
    + exists a, e, (b ++ [(o, evs)]). rewrite <- app_assoc. auto.
    + exists tr, evs, []. auto.
Qed.
Lemma hooked_connected tr id : hooked tr id -> In id (connects (ops_of tr)).
Proof. intros (a & e & b & -> & I & _). unfold ops_of, connects in *. rewrite map_app, flat_map_app. apply in_app_iff. auto. Qed.

(** ** The invariant *)
Section Server.
Context (mg : bool) (ka : Z) (prior : list mop).
Notation hist_of tr := (history mg prior (ops_of tr)).

Record oinv (tr : trace) (id : Z) (o : sobj) : Prop := {
  oi_conn : In id (connects (ops_of tr));
  oi_icc : ss_icc (so_sess o) = hi_icc (hist_of tr) id;
  oi_closed : so_closed o = is_shut tr id;
  oi_full : so_full o = blocked (ops_of tr) id;
  oi_cb : so_cb o = true <-> hooked tr id;
  oi_ran : so_ran o = is_gone tr id;
  oi_next : is_shut tr id = false -> next_serial (ss_next (so_sess o)) = serial (sent_on tr id);
  oi_reqs : forall r, In r (ss_reqs (so_sess o)) <-> In (id, r) (waiting tr);
  oi_okreqs : okreqs (ss_reqs (so_sess o)) }.
Record sinv (tr : trace) (sv : server) : Prop := {
  si_auto : sv_auto sv = mg;
  si_handlers : forall i, load_handler (sv_handlers sv) i = handler_of (ops_of tr) i;
  si_tight : tight (sv_timer sv);
  si_view : view (sv_timer sv) (deadlines ka tr);
  si_secs : tm_seconds (sv_timer sv) = ka;
  si_up : Forall mop_ok (hi_up (hist_of tr));
  si_fs : exists outs, mrun empty_fs [] (hi_up (hist_of tr)) = Ok (sv_fs sv, outs);
  si_objs : forall id, match obj_get (sv_objs sv) id with Some o => oinv tr id o | None => ~ In id (connects (ops_of tr)) end;
  si_nodup : NoDup (sv_reg sv);
  si_reg : forall id, In id (sv_reg sv) <-> In id (connects (ops_of tr)) /\ is_gone tr id = false;
  si_clean : forall id, is_shut tr id = true \/ is_gone tr id = true -> In id (connects (ops_of tr));
  si_new : forall id, ~ In id (connects (ops_of tr)) -> sent_on tr id = O;
  si_wait : forall id r, In (id, r) (waiting tr) -> In id (connects (ops_of tr)) /\ In (rq_tok r) (asked (ops_of tr)) }.

Lemma si_get tr sv id : sinv tr sv -> In id (connects (ops_of tr)) -> exists o, obj_get (sv_objs sv) id = Some o /\ oinv tr id o.
Proof. intros V I. pose proof (si_objs _ _ V id) as H. destruct (obj_get _ _) as [o|]; [eauto|contradiction]. Qed.

(** Operations that only touch objects *)
Definition inert (o : sv_op) : bool := match o with OConnect _ _ | OTick _ | OAddHandler _ _ | ODeliver _ _ _ => false | _ => true end.
Lemma hist_inert o h : match o with OConnect _ _ | ODeliver _ _ _ => False | _ => True end -> hist_step mg h o = h.
Proof. destruct o; cbn; tauto. Qed.

Lemma timer_update_ok t id now f : tight t -> view t f -> tm_seconds t = ka ->
  exists t', timer_update t id now = Ok t' /\ tight t' /\ view t' (put f id (Some (wrapped now ka))) /\ tm_seconds t' = ka.
Proof.
  intros T V S. unfold timer_update. destruct (tight_remove t id f T V) as (t1 & -> & T1 & V1 & S1). cbn [bind].
  destruct (tight_insert t1 id (deadline t now) (put f id None) T1 V1) as (T2 & V2 & S2); [unfold put; rewrite Z.eqb_refl; reflexivity|].
  eexists. split; [reflexivity|]. split; auto. split; [|congruence]. intros k. rewrite <- V2. unfold put, deadline. rewrite S. destruct (k =? id); reflexivity.
Qed.

(** ** Sending *)
Definition next_ok (tr : trace) (id : Z) (s : session) (evs : list sv_event) : Prop :=
  is_shut tr id || shuts id evs = false -> next_serial (ss_next s) = serial (sent_on tr id + cnt id evs).
Lemma send_spec tr sv id o e : oinv tr id o -> exists o' evs, sv_send sv id o e = (set_obj sv id o', o', evs) /\ sending mg prior tr id e evs /\
  ss_icc (so_sess o') = ss_icc (so_sess o) /\ so_closed o' = so_closed o || shuts id evs /\ so_full o' = so_full o /\ so_cb o' = so_cb o /\ so_ran o' = so_ran o /\
  (forall x, x <> id -> shuts x evs = false) /\ (forall x, gones x evs = false) /\ (forall f, fold_left (dl_event ka) evs f = f) /\
  ss_reqs (so_sess o') = ss_reqs (so_sess o) /\ next_ok tr id (so_sess o') evs /\ (forall x, x <> id -> touches x evs = false) /\ (forall x tok m, ~ In (SvAnswer x tok m) evs).
Proof.
  intros I. unfold sv_send, session_send, sending, next_ok. pose proof (oi_closed _ _ _ I) as C. pose proof (oi_full _ _ _ I) as F. pose proof (oi_icc _ _ _ I) as K. pose proof (oi_next _ _ _ I) as X.
  destruct (so_closed o) eqn:CE; [|destruct (so_full o) eqn:FE]; do 2 eexists; (split; [reflexivity|]); rewrite <- C, <- ?F; (split; [eauto|]); cbn; try (rewrite CE); try (rewrite FE).
  - repeat split; auto. discriminate.
  - repeat split; auto; try (rewrite Z.eqb_refl; auto; discriminate); [intros x N; destruct (Z.eqb_spec id x); [congruence|reflexivity]|]. intros; intuition discriminate.
  - rewrite <- K, X by auto. reflexivity.
  - rewrite X by auto. rewrite Z.eqb_refl. cbn [length]. rewrite Nat.add_1_r. repeat split; auto; [intros _; apply serial_next|intros x N; destruct (Z.eqb_spec id x); [congruence|reflexivity]|]. intros; intuition discriminate.
Qed.

(** ** Keeping the invariant *)
Definition not_special (op : sv_op) (id : Z) : Prop :=
  match op with OConnect _ _ => False | OAddCb i => i <> id | OQueue i _ => i <> id | _ => True end.
Definition sess_ok (tr : trace) (id : Z) (s : session) (op : sv_op) (evs : list sv_event) : Prop :=
  ss_icc s = hi_icc (hist_step mg (hist_of tr) op) id /\ next_ok tr id s evs /\ (forall r, In r (ss_reqs s) <-> In (id, r) (wait_step (waiting tr) (op, evs))) /\ okreqs (ss_reqs s).
Lemma oinv_step tr id o o' op evs : oinv tr id o -> not_special op id -> sess_ok tr id (so_sess o') op evs ->
  so_closed o' = so_closed o || shuts id evs -> so_full o' = so_full o -> so_cb o' = so_cb o -> so_ran o' = so_ran o || gones id evs -> oinv (tr ++ [(op, evs)]) id o'.
Proof.
  intros [A B C D E F A1 A2 A3] N (H1 & H6 & H7 & H8) H2 H3 H4 H5. constructor; auto.
  - rewrite ops_snoc, connects_snoc. apply in_app_iff. auto.
  - rewrite ops_snoc, history_snoc. auto.
  - rewrite is_shut_snoc. congruence.
  - rewrite ops_snoc, blocked_snoc, H3, D. cbn [fst]. destruct op; auto; cbn in N; [contradiction|]. destruct (Z.eqb_spec id0 id); congruence.
  - rewrite H4, E, hooked_snoc. split; auto. intros [X|(-> & _)]; auto. cbn in N. contradiction.
  - rewrite is_gone_snoc. congruence.
  - rewrite is_shut_snoc, sent_snoc. exact H6.
  - intros r. rewrite waiting_snoc. auto.
Qed.
Lemma sess_same tr id o op evs : oinv tr id o -> hi_icc (hist_step mg (hist_of tr) op) id = hi_icc (hist_of tr) id -> touches id evs = false -> sess_ok tr id (so_sess o) op evs.
Proof.
  intros I H T. split; [rewrite H; apply I|]. split; [|split; [|apply I]].
  - unfold next_ok. rewrite orb_false_iff, touch_cnt, Nat.add_0_r by auto. intros (S & _). apply I. auto.
  - intros r. rewrite touch_wait by auto. apply I.
Qed.
Lemma sess_send tr id o s op evs : oinv tr id o -> hi_icc (hist_step mg (hist_of tr) op) id = hi_icc (hist_of tr) id -> match op with ORequest _ _ _ => False | _ => True end ->
  ss_icc s = ss_icc (so_sess o) -> ss_reqs s = ss_reqs (so_sess o) -> next_ok tr id s evs -> (forall x tok m, ~ In (SvAnswer x tok m) evs) -> sess_ok tr id s op evs.
Proof.
  intros I H N H1 H2 H3 H4. split; [rewrite H, H1; apply I|]. split; auto. rewrite wait_plain by auto. rewrite H2. split; apply I.
Qed.
Lemma oinv_same tr id o op evs : oinv tr id o -> not_special op id -> hi_icc (hist_step mg (hist_of tr) op) id = hi_icc (hist_of tr) id ->
  shuts id evs = false -> gones id evs = false -> touches id evs = false -> oinv (tr ++ [(op, evs)]) id o.
Proof. intros I N H S G T. eapply oinv_step; eauto; rewrite ?S, ?G, ?orb_false_r; auto. apply sess_same; auto. Qed.
(** What every step needs for the two facts about new sessions *)
Lemma new_step tr sv op evs : sinv tr sv -> (forall x, touches x evs = true -> In x (connects (ops_of tr))) ->
  (forall id, ~ In id (connects (ops_of (tr ++ [(op, evs)]))) -> sent_on (tr ++ [(op, evs)]) id = O) /\
  (forall id r, In (id, r) (waiting (tr ++ [(op, evs)])) -> In id (connects (ops_of (tr ++ [(op, evs)]))) /\ In (rq_tok r) (asked (ops_of (tr ++ [(op, evs)])))).
Proof.
  intros V T. split.
  - intros id N. rewrite sent_snoc. rewrite ops_snoc, connects_snoc, in_app_iff in N. rewrite (si_new _ _ V) by tauto. rewrite touch_cnt; auto. destruct (touches id evs) eqn:E; auto. apply T in E. tauto.
  - intros id r. rewrite waiting_snoc, ops_snoc, connects_snoc, asked_snoc, !in_app_iff. cbn [fst]. intros H. apply wait_in in H. destruct H as [H|(i & e & m & -> & ->)].
    + apply (si_wait _ _ V) in H. tauto.
    + split; [left; apply T; cbn; rewrite Z.eqb_refl; reflexivity|right; cbn; auto].
Qed.

(** Steps that only change objects *)
Definition only_objs (sv sv' : server) : Prop :=
  sv_auto sv' = sv_auto sv /\ sv_handlers sv' = sv_handlers sv /\ sv_timer sv' = sv_timer sv /\ sv_fs sv' = sv_fs sv /\ sv_reg sv' = sv_reg sv.
Lemma objs_step tr sv sv' op evs : sinv tr sv -> only_objs sv sv' ->
  match op with OConnect _ _ | ODeliver _ _ _ | OAddHandler _ _ | OTick _ => False | _ => True end ->
  (forall x, gones x evs = false) -> (forall f, fold_left (dl_event ka) evs f = f) -> (forall x, shuts x evs = true -> In x (connects (ops_of tr))) ->
  (forall x, touches x evs = true -> In x (connects (ops_of tr))) ->
  (forall id, match obj_get (sv_objs sv') id with Some o => oinv (tr ++ [(op, evs)]) id o | None => ~ In id (connects (ops_of tr)) end) ->
  sinv (tr ++ [(op, evs)]) sv'.
Proof.
  intros V (O1 & O2 & O3 & O4 & O5) OP GO DL SH TO OB. destruct (new_step tr sv op evs V TO) as (NW1 & NW2). pose proof V as [A B C D E F G H I J K L M].
  assert (HS : history mg prior (ops_of (tr ++ [(op, evs)])) = hist_of tr) by (rewrite ops_snoc, history_snoc; apply hist_inert; destruct op; tauto).
  assert (CS : connects (ops_of (tr ++ [(op, evs)])) = connects (ops_of tr)) by (rewrite ops_snoc, connects_snoc; cbn [fst]; destruct op; try contradiction; apply app_nil_r).
  rewrite CS in NW1, NW2. constructor; rewrite ?HS, ?CS, ?O1, ?O2, ?O3, ?O4, ?O5; auto.
  - intros i. rewrite B, ops_snoc, handler_snoc. cbn [fst]. destruct op; auto; contradiction.
  - rewrite deadlines_snoc. intros k. rewrite <- D. unfold dl_step. destruct op; try contradiction; rewrite DL; reflexivity.
  - intros id. rewrite is_gone_snoc, GO, orb_false_r. auto.
  - intros id. rewrite is_gone_snoc, is_shut_snoc, GO, orb_false_r. intros [X|X]; [|auto]. apply orb_true_iff in X. destruct X; auto.
Qed.

Lemma step_send tr sv id o e op : sinv tr sv -> obj_get (sv_objs sv) id = Some o ->
  match op with OConnect _ _ | ODeliver _ _ _ | OAddHandler _ _ | OTick _ | OAddCb _ | OQueue _ _ | ORequest _ _ _ => False | _ => True end ->
  exists sv' o' evs, sv_send sv id o e = (sv', o', evs) /\ sending mg prior tr id e evs /\ sinv (tr ++ [(op, evs)]) sv' /\ obj_get (sv_objs sv') id = Some o'.
Proof.
  intros V G OP. pose proof (si_objs _ _ V id) as I. rewrite G in I. destruct (send_spec tr sv id o e I) as (o' & evs & E & S & H1 & H2 & H3 & H4 & H5 & H6 & H7 & H8 & H9 & H10 & H11 & H12).
  do 3 eexists. split; [exact E|]. split; [auto|]. split; [|cbn [set_obj sv_objs]; rewrite obj_get_set, Z.eqb_refl; reflexivity]. apply (objs_step tr sv); auto.
  - repeat split.
  - destruct op; auto.
  - intros x X. destruct (Z.eq_dec x id) as [->|N]; [apply I|]. rewrite H6 in X by auto. discriminate.
  - intros x X. destruct (Z.eq_dec x id) as [->|N]; [apply I|]. rewrite H11 in X by auto. discriminate.
  - intros x. cbn [set_obj sv_objs]. rewrite obj_get_set. assert (HI : hist_step mg (hist_of tr) op = hist_of tr) by (apply hist_inert; destruct op; tauto).
    destruct (Z.eqb_spec id x) as [<-|N].
    + eapply oinv_step; eauto; [destruct op; cbn; tauto| |rewrite H7, orb_false_r; auto]. eapply sess_send; eauto; [congruence|destruct op; tauto].
    + pose proof (si_objs _ _ V x) as X. destruct (obj_get (sv_objs sv) x); auto. apply oinv_same; auto; [destruct op; cbn; tauto|congruence].
Qed.

(** ** The steps *)
Definition step_ok (tr : trace) (sv : server) (op : sv_op) : Prop :=
  exists sv' evs, sv_step sv op = Ok (sv', evs) /\ sinv (tr ++ [(op, evs)]) sv' /\ effect mg ka prior tr op evs.

Lemma connected_in tr id : connected tr id = true <-> In id (connects (ops_of tr)).
Proof. unfold connected. rewrite existsb_exists. split; [intros (x & I & E); assert (x = id) by lia; subst; auto|intros I; exists id; split; auto; lia]. Qed.
Lemma connected_get tr sv id : sinv tr sv -> connected tr id = match obj_get (sv_objs sv) id with Some _ => true | None => false end.
Proof.
  intros V. pose proof (si_objs _ _ V id) as I. destruct (obj_get _ _) as [o|].
  - apply connected_in. apply I.
  - destruct (connected tr id) eqn:E; auto. apply connected_in in E. contradiction.
Qed.
Lemma registered_in tr sv id : sinv tr sv -> registered tr id = true <-> In id (sv_reg sv).
Proof. intros V. rewrite (si_reg _ _ V id). unfold registered. rewrite andb_true_iff, connected_in, negb_true_iff. tauto. Qed.

Lemma same_others tr sv op evs x : sinv tr sv -> not_special op x -> hi_icc (hist_step mg (hist_of tr) op) x = hi_icc (hist_of tr) x -> shuts x evs = false -> gones x evs = false -> touches x evs = false ->
  match obj_get (sv_objs sv) x with Some o => oinv (tr ++ [(op, evs)]) x o | None => ~ In x (connects (ops_of tr)) end.
Proof. intros V N H S G T. pose proof (si_objs _ _ V x) as X. destruct (obj_get (sv_objs sv) x); auto. apply oinv_same; auto. Qed.

Lemma step_connect tr sv id now : sinv tr sv -> ~ In id (connects (ops_of tr)) -> step_ok tr sv (OConnect id now).
Proof.
  intros V N. unfold step_ok. cbn [sv_step]. cbn [set_obj set_reg sv_timer]. pose proof V as [A B C D E F G H I J K NN NW].
  destruct (timer_update_ok _ id now _ C D E) as (t & -> & T & TV & TS). cbn [bind]. do 2 eexists. split; [reflexivity|]. split; [|reflexivity].
  assert (CS : connects (ops_of (tr ++ [(OConnect id now, [SvRefresh id now])])) = connects (ops_of tr) ++ [id]) by (rewrite ops_snoc, connects_snoc; reflexivity).
  assert (NS : is_shut tr id = false /\ is_gone tr id = false).
  { split; [destruct (is_shut tr id) eqn:X|destruct (is_gone tr id) eqn:X]; auto; exfalso; apply N, K; auto. }
  destruct NS as (NS & NG). destruct (new_step tr sv (OConnect id now) [SvRefresh id now] V) as (NW1 & NW2); [discriminate|]. assert (NO : forall r, ~ In (id, r) (waiting tr)) by (intros r X; apply NW in X; tauto).
  constructor; cbn [set_obj set_reg set_timer sv_auto sv_handlers sv_timer sv_fs sv_objs sv_reg]; auto.
  - intros i. rewrite B, ops_snoc, handler_snoc. reflexivity.
  - intros k. rewrite deadlines_snoc. cbn [dl_step fold_left dl_event]. apply TV.
  - rewrite ops_snoc, history_snoc. exact F.
  - rewrite ops_snoc, history_snoc. exact G.
  - intros x. rewrite obj_get_set, CS. destruct (Z.eqb_spec id x) as [<-|Nx].
    + constructor.
      * rewrite CS. apply in_app_iff. cbn. auto.
      * rewrite ops_snoc, history_snoc. cbn. rewrite Z.eqb_refl. reflexivity.
      * rewrite is_shut_snoc, NS. reflexivity.
      * rewrite ops_snoc, blocked_snoc. cbn [fst]. rewrite Z.eqb_refl. reflexivity.
      * cbn. split; [discriminate|]. rewrite hooked_snoc. intros [X|(X & _)]; [|discriminate]. apply hooked_connected in X. contradiction.
      * rewrite is_gone_snoc, NG. reflexivity.
      * intros _. rewrite sent_snoc, NN by auto. reflexivity.
      * intros r. rewrite waiting_snoc, touch_wait by reflexivity. split; [intros []|apply NO].
      * repeat split; constructor.
    + pose proof (H x) as X. destruct (obj_get (sv_objs sv) x).
      * destruct X as [X1 X2 X3 X4 X5 X6 X7 X8 X9]. constructor; auto.
        -- rewrite CS. apply in_app_iff. auto.
        -- rewrite ops_snoc, history_snoc. cbn. destruct (Z.eqb_spec x id); [congruence|auto].
        -- rewrite is_shut_snoc. cbn. rewrite orb_false_r. auto.
        -- rewrite ops_snoc, blocked_snoc. cbn [fst]. destruct (Z.eqb_spec id x); [congruence|auto].
        -- rewrite X5, hooked_snoc. split; auto. intros [Y|(Y & _)]; [auto|discriminate].
        -- rewrite is_gone_snoc. cbn. rewrite orb_false_r. auto.
        -- rewrite is_shut_snoc, sent_snoc. cbn. rewrite orb_false_r, Nat.add_0_r. auto.
        -- intros r. rewrite waiting_snoc, touch_wait by reflexivity. auto.
      * intros Y. apply in_app_iff in Y. cbn in Y. intuition.
  - constructor; auto. intros X. apply J in X. tauto.
  - intros x. rewrite CS, is_gone_snoc. cbn [gones existsb]. rewrite orb_false_r. cbn [In]. rewrite J, in_app_iff. cbn [In]. intuition (subst; auto).
  - intros x. rewrite CS, is_gone_snoc, is_shut_snoc. cbn [gones shuts existsb]. rewrite !orb_false_r. intros X. apply in_app_iff. left. apply K. auto.
Qed.

Lemma step_addcb tr sv id : sinv tr sv -> step_ok tr sv (OAddCb id).
Proof.
  intros V. unfold step_ok. cbn [sv_step]. pose proof (si_objs _ _ V id) as I. destruct (obj_get (sv_objs sv) id) as [o|] eqn:G.
  - do 2 eexists. split; [reflexivity|]. split; [|reflexivity]. apply (objs_step tr sv); auto; try discriminate; [destruct (so_closed o); repeat split|].
    intros x. destruct (Z.eq_dec id x) as [<-|N].
    + pose proof I as [A B C D E F F1 F2 F3]. assert (NH : ~ hooked tr id -> so_closed o = true -> ~ hooked (tr ++ [(OAddCb id, [])]) id).
      { rewrite hooked_snoc. intros X Y [Z|(_ & _ & Z)]; [contradiction|congruence]. }
      destruct (so_closed o) eqn:SC; [rewrite G|cbn [set_obj sv_objs]; rewrite obj_get_set, Z.eqb_refl].
      * constructor; rewrite ?ops_snoc, ?connects_snoc, ?history_snoc, ?is_shut_snoc, ?is_gone_snoc, ?blocked_snoc; cbn [fst shuts gones existsb hist_step]; rewrite ?orb_false_r, ?app_nil_r; auto; [congruence| | |].
        2:{ rewrite sent_snoc. cbn. rewrite Nat.add_0_r. auto. }
        2:{ intros r. rewrite waiting_snoc, touch_wait by reflexivity. auto. }
        rewrite E, hooked_snoc. split; auto. intros [X|(_ & _ & X)]; [auto|congruence].
      * constructor; rewrite ?ops_snoc, ?connects_snoc, ?history_snoc, ?is_shut_snoc, ?is_gone_snoc, ?blocked_snoc; cbn [fst shuts gones existsb hist_step so_sess so_closed so_full so_cb so_ran]; rewrite ?orb_false_r, ?app_nil_r; auto.
        2:{ rewrite sent_snoc. cbn. rewrite Nat.add_0_r. auto. }
        2:{ intros r. rewrite waiting_snoc, touch_wait by reflexivity. auto. }
        rewrite hooked_snoc. split; [intros _; right; auto|auto].
    + assert (X : obj_get (sv_objs (if so_closed o then sv else set_obj sv id (Sobj (so_sess o) false (so_full o) true (so_ran o)))) x = obj_get (sv_objs sv) x).
      { destruct (so_closed o); auto. cbn [set_obj sv_objs]. rewrite obj_get_set. destruct (Z.eqb_spec id x); [contradiction|auto]. }
      rewrite X. apply same_others; auto.
  - do 2 eexists. split; [reflexivity|]. split; [|reflexivity]. apply (objs_step tr sv); auto; try discriminate; [repeat split|].
    intros x. destruct (Z.eq_dec id x) as [<-|N]; [rewrite G; auto|]. apply same_others; auto.
Qed.

Lemma step_queue tr sv id b : sinv tr sv -> step_ok tr sv (OQueue id b).
Proof.
  intros V. unfold step_ok. cbn [sv_step]. pose proof (si_objs _ _ V id) as I. destruct (obj_get (sv_objs sv) id) as [o|] eqn:G.
  - do 2 eexists. split; [reflexivity|]. split; [|reflexivity]. apply (objs_step tr sv); auto; try discriminate; [repeat split|].
    intros x. cbn [set_obj sv_objs]. rewrite obj_get_set. destruct (Z.eqb_spec id x) as [<-|N]; [|apply same_others; auto].
    pose proof I as [A B C D E F F1 F2 F3].
    constructor; rewrite ?ops_snoc, ?connects_snoc, ?history_snoc, ?is_shut_snoc, ?is_gone_snoc, ?blocked_snoc; cbn [fst shuts gones existsb hist_step so_sess so_closed so_full so_cb so_ran]; rewrite ?orb_false_r, ?app_nil_r, ?Z.eqb_refl; auto.
    2:{ rewrite sent_snoc. cbn. rewrite Nat.add_0_r. auto. }
    2:{ intros r. rewrite waiting_snoc, touch_wait by reflexivity. auto. }
    rewrite E, hooked_snoc. split; auto. intros [X|(X & _)]; [auto|discriminate].
  - do 2 eexists. split; [reflexivity|]. split; [|reflexivity]. apply (objs_step tr sv); auto; try discriminate; [repeat split|].
    intros x. destruct (Z.eq_dec id x) as [<-|N]; [rewrite G; auto|]. apply same_others; auto.
Qed.

Lemma shuts_one id x : shuts x [SvShut id] = (id =? x). Proof. cbn. apply orb_false_r. Qed.
Lemma step_close tr sv id : sinv tr sv -> step_ok tr sv (OClose id).
Proof.
  intros V. unfold step_ok. cbn [sv_step]. unfold close_session, effect, open. rewrite (connected_get tr sv id V). pose proof (si_objs _ _ V id) as I. destruct (obj_get (sv_objs sv) id) as [o|] eqn:G.
  - rewrite <- (oi_closed _ _ _ I). destruct (so_closed o) eqn:SC; cbn [andb negb shut_if].
    + do 2 eexists. split; [reflexivity|]. split; [|reflexivity]. apply (objs_step tr sv); auto; try discriminate; [repeat split|]. intros x. apply same_others; cbn; auto.
    + do 2 eexists. split; [reflexivity|]. split; [|reflexivity]. apply (objs_step tr sv); auto; try discriminate; [repeat split| |].
      * intros x. rewrite shuts_one. intros X. assert (x = id) by lia. subst x. apply I.
      * intros x. cbn [set_obj sv_objs]. rewrite obj_get_set. destruct (Z.eqb_spec id x) as [<-|N].
        -- eapply oinv_step; eauto; cbn; auto; [apply sess_same; auto|rewrite Z.eqb_refl, orb_true_r; auto|rewrite orb_false_r; auto].
        -- apply same_others; cbn; auto. destruct (Z.eqb_spec id x); [contradiction|auto].
  - do 2 eexists. split; [reflexivity|]. split; [|reflexivity]. apply (objs_step tr sv); auto; try discriminate; [repeat split|]. intros x. apply same_others; cbn; auto.
Qed.

Lemma step_sendto tr sv id e : sinv tr sv -> step_ok tr sv (OSendTo id e).
Proof.
  intros V. unfold step_ok. cbn [sv_step]. unfold effect. rewrite (connected_get tr sv id V). destruct (obj_get (sv_objs sv) id) as [o|] eqn:G.
  - destruct (step_send tr sv id o e (OSendTo id e) V G I) as (sv' & o' & evs & -> & S & V' & _). eauto.
  - do 2 eexists. split; [reflexivity|]. split; [|reflexivity]. apply (objs_step tr sv); auto; try discriminate; [repeat split|]. intros x. apply same_others; cbn; auto.
Qed.
Lemma add_in l r : NoDup (map rq_msgid l) -> forall x, In x (add_request l r) <-> In x l /\ rq_msgid x <> rq_msgid r \/ x = r.
Proof.
  intros N x. destruct (add_spec l r) as [(-> & H)|(l1 & y & l2 & -> & -> & H)].
  - rewrite in_app_iff. cbn [In]. split; [intros [X|[X|[]]]; [left; split; auto; intros Y; apply H; rewrite <- Y; apply in_map; auto|auto]|intuition].
  - rewrite map_app in N. cbn [map] in N. apply NoDup_remove_2 in N. rewrite !in_app_iff in *. cbn [In].
    assert (K : forall z, In z l1 \/ In z l2 -> rq_msgid z <> rq_msgid r). { intros z Z E. apply N. rewrite H, <- E. destruct Z as [Z|Z]; [left|right]; apply in_map; auto. }
    split.
    + intros [X|[X|X]]; auto.
    + intros [([X|[X|X]] & Y)|X]; auto. subst. contradiction.
Qed.
Lemma add_ok l r : okreqs l -> ~ In (rq_tok r) (map rq_tok l) -> 1 <= rq_serial r -> okreqs (add_request l r).
Proof.
  intros (A & B & C) N S. split; [|split].
  - destruct (add_spec l r) as [(-> & H)|(l1 & y & l2 & -> & -> & H)].
    + rewrite map_app. apply (Permutation_NoDup (Permutation_cons_append _ _)). constructor; auto.
    + rewrite map_app in *. cbn [map] in *. apply NoDup_remove in A. destruct A as (A & _). apply (Permutation_NoDup (Permutation_middle _ _ _)). constructor; auto. rewrite in_app_iff in *. cbn in N. tauto.
  - destruct (add_spec l r) as [(-> & H)|(l1 & y & l2 & -> & -> & H)].
    + rewrite map_app. apply (Permutation_NoDup (Permutation_cons_append _ _)). constructor; auto.
    + rewrite map_app in *. cbn [map] in *. rewrite <- H. auto.
  - apply Forall_forall. intros x X. apply add_in in X; auto. destruct X as [(X & _)|X]; [|subst; auto]. rewrite Forall_forall in C. auto.
Qed.
Lemma step_request tr sv id tok e : sinv tr sv -> ~ In tok (asked (ops_of tr)) -> step_ok tr sv (ORequest id tok e).
Proof.
  intros V NT. unfold step_ok. cbn [sv_step]. unfold effect. rewrite (connected_get tr sv id V). destruct (obj_get (sv_objs sv) id) as [o|] eqn:G.
  - pose proof (si_objs _ _ V id) as I. rewrite G in I. destruct (send_spec tr sv id o e I) as (o' & evs & E & S & H1 & H2 & H3 & H4 & H5 & H6 & H7 & H8 & H9 & H10 & H11 & H12).
    assert (OTH : forall sv2 s2, sv2 = set_obj sv id (with_sess o' s2) -> sess_ok tr id s2 (ORequest id tok e) evs -> sinv (tr ++ [(ORequest id tok e, evs)]) sv2).
    { intros sv2 s2 -> SO. apply (objs_step tr sv); auto; [repeat split| | |].
      - intros x X. destruct (Z.eq_dec x id) as [->|N]; [apply I|]. rewrite H6 in X by auto. discriminate.
      - intros x X. destruct (Z.eq_dec x id) as [->|N]; [apply I|]. rewrite H11 in X by auto. discriminate.
      - intros x. cbn [set_obj sv_objs]. rewrite obj_get_set. destruct (Z.eqb_spec id x) as [<-|N]; [|apply same_others; auto; cbn; auto].
        eapply oinv_step; eauto; [cbn; auto|]. rewrite H7, orb_false_r. auto. }
    assert (DF : evs = [] \/ evs = [SvShut id] -> sess_ok tr id (so_sess o') (ORequest id tok e) evs).
    { intros C. split; [rewrite H1; apply I|]. split; [auto|]. split; [|rewrite H9; apply I]. intros r. rewrite H9, touch_wait; [apply I|]. destruct C as [-> | ->]; reflexivity. }
    unfold sv_request. rewrite E. destruct o' as [so' cl' fu' cb' ra']. pose proof S as S0. unfold sending in S. destruct (is_shut tr id) eqn:SH; [|destruct (blocked (ops_of tr) id)]; subst evs.
    + do 2 eexists. split; [reflexivity|]. split; [|exact S0]. eapply OTH; [|apply DF; auto]. reflexivity.
    + do 2 eexists. split; [reflexivity|]. split; [|exact S0]. eapply OTH; [|apply DF; auto]. reflexivity.
    + do 2 eexists. split; [reflexivity|]. split; [|exact S0]. eapply OTH; [unfold set_obj; cbn [sv_auto sv_handlers sv_timer sv_fs sv_objs sv_reg]; rewrite obj_set_set; reflexivity|].
      cbn [so_sess] in *. cbn [m_hdr h_serial]. split; [cbn [ss_icc]; rewrite H1; apply I|]. split; [exact H10|]. cbn [ss_reqs]. rewrite H9. pose proof (oi_okreqs _ _ _ I) as OK. split.
      * intros r. rewrite add_in by apply OK. cbn [wait_step m_hdr h_serial rq_msgid]. rewrite in_app_iff, filter_In. cbn [fst snd In]. rewrite Z.eqb_refl. cbn [andb]. rewrite negb_true_iff, Z.eqb_neq, (oi_reqs _ _ _ I).
        split; [intros [X|X]; [auto|subst; auto]|]. intros [X|[X|[]]]; [auto|]. injection X as <-. auto.
      * apply add_ok; cbn [rq_tok rq_serial]; auto.
        -- intros X. apply in_map_iff in X. destruct X as (r & <- & X). apply (oi_reqs _ _ _ I), (si_wait _ _ V) in X. tauto.
        -- pose proof (serial_range (sent_on tr id)). lia.
  - do 2 eexists. split; [reflexivity|]. split; [|reflexivity]. apply (objs_step tr sv); auto; try discriminate; [repeat split|]. intros x. apply same_others; cbn; auto.
Qed.
Lemma step_handler tr sv i h : sinv tr sv -> step_ok tr sv (OAddHandler i h).
Proof.
  intros V. do 2 eexists. split; [reflexivity|]. split; [|reflexivity]. pose proof V as [A B C D E F G H I J K NN NW].
  destruct (new_step tr sv (OAddHandler i h) [] V) as (NW1 & NW2); [discriminate|]. rewrite ops_snoc, connects_snoc, app_nil_r in NW1.
  assert (NW3 := NW2). rewrite ops_snoc, connects_snoc, asked_snoc, !app_nil_r in NW3.
  constructor; cbn [add_handler sv_auto sv_handlers sv_timer sv_fs sv_objs sv_reg]; rewrite ?ops_snoc, ?connects_snoc, ?asked_snoc, ?history_snoc, ?deadlines_snoc; cbn [fst]; rewrite ?app_nil_r; auto.
  - intros j. rewrite handler_snoc. cbn [load_handler]. destruct (i =? j); auto.
  - intros x. apply same_others; cbn; auto.
  - intros x. rewrite is_gone_snoc. cbn [gones existsb]. rewrite orb_false_r. auto.
  - intros x. rewrite is_gone_snoc, is_shut_snoc. cbn [gones shuts existsb]. rewrite !orb_false_r. auto.
Qed.
End Server.
