(** The whole process: refinement, reception and crashes. *)
From Verif Require Import Base LibBase Bits LibBits Env EntPlat Registry Message Codec Timer Session Multipart Server Host.
From Verif Require Import SpecGeo SpecEntity SpecMsg SpecStream SpecSession SpecMulti SpecTimer SpecServer.
From Verif Require Import ProofStream ProofStream2 ProofMsg ProofMsg2 ProofServer ProofServer2 ProofServer3 ProofServer4 ProofServer6 ProofServer7 ProofHost ProofHost2 ProofHost3 ProofHost4 ProofHost5.
From Verif Require Import SpecHost.

(** ** A history and its invariant *)
Lemma hlegal_pre a b : hlegal (a ++ b) -> hlegal a.
Proof. intros L pre p post E. apply (L pre p (post ++ b)). rewrite E, <- app_assoc. reflexivity. Qed.
Lemma runs_hinv env key o prior sv ops h tr : starts o prior sv -> key_ok env key -> hlegal ops -> host_run env key (Host sv []) ops = Ok (h, tr) -> hinv env key o prior sv tr h /\ hops tr = ops.
Proof.
  intros S K L R. destruct (host_all env key o prior sv K ops [] _ (host_start env key o prior sv S) L) as [(h' & tr' & E & O & V)|(E & _)]; [|congruence].
  rewrite E in R. injection R as <- <-. auto.
Qed.
Lemma refinement env key o prior ops h tr : hruns env key o prior ops h tr ->
  hops tr = ops /\ SpecServer.runs o prior (ops_of (inner tr)) (inner tr) /\ Forall (fun x => causes (fst x) (snd x)) tr.
Proof.
  intros (sv & S & K & L & R). destruct (runs_hinv _ _ _ _ _ _ _ _ S K L R) as (V & O). split; auto. split; [|eapply run_causes; eauto].
  destruct V as [(_ & _ & LG & RN) _ _ _]. exists sv, (ho_sv h). auto.
Qed.
(** ** Reception *)
Lemma received_prefix env key o prior ops h tr id : hruns env key o prior ops h tr -> is_prefix (delivered id (inner tr)) (fst (says env key (arrived id ops))).
Proof.
  intros (sv & S & K & L & R). destruct (runs_hinv _ _ _ _ _ _ _ _ S K L R) as (V & O). pose proof (hv_conn _ _ _ _ _ _ _ V id) as H. rewrite O in H. destruct (conn_get (ho_conns h) id) as [c|].
  - destruct H as (_ & [_ (past & rest & A & P & _)] & _). rewrite A, P. exists (fst (says env key rest)). reflexivity.
  - destruct H as (NI & A & _). destruct (delivered id (inner tr)) as [|m l] eqn:D; [exists (fst (says env key (arrived id ops))); reflexivity|].
    exfalso. apply NI. rewrite <- O, <- (hv_acc _ _ _ _ _ _ _ V). apply (delivered_connected (inner tr) id m); [apply V|rewrite D; cbn; auto].
Qed.
Lemma arrived_app id a b : arrived id (a ++ b) = arrived id a ++ arrived id b. Proof. unfold arrived. rewrite map_app, concat_app. reflexivity. Qed.
Lemma accepted_app a b : accepted (a ++ b) = accepted a ++ accepted b. Proof. apply flat_map_app. Qed.
Lemma accepted_once a b id : hlegal (a ++ b) -> In id (accepted a) -> ~ In id (accepted b).
Proof.
  intros L I J. unfold accepted in J. apply in_flat_map in J. destruct J as (op & J1 & J2). apply in_split in J1. destruct J1 as (b1 & b2 & ->).
  destruct op; try contradiction. destruct op; try contradiction. destruct J2 as [->|[]]. specialize (L (a ++ b1) (HOp (OConnect id now)) b2). rewrite <- app_assoc in L. specialize (L eq_refl). cbn in L.
  apply L. rewrite accepted_app, in_app_iff. auto.
Qed.
Lemma arrived_accepted ops id : hlegal ops -> arrived id ops <> [] -> In id (accepted ops).
Proof.
  intros L N. assert (E : exists d, In (HArrive id d) ops).
  { clear L. induction ops as [|op ops IH]; [contradiction|]. rewrite arrived_cons in N. destruct op; try (destruct IH as (d0 & I); [exact N|exists d0; cbn; auto]). destruct (Z.eqb_spec id0 id) as [->|].
    - exists d. cbn. auto.
    - destruct IH as (d0 & I); [exact N|]. exists d0. cbn. auto. }
  destruct E as (d & I). apply in_split in I. destruct I as (a & b & ->). destruct (L a _ b eq_refl) as (I & _). rewrite accepted_app, in_app_iff. auto.
Qed.
Lemma heard_all env key o prior a b h tr id : hruns env key o prior (a ++ b) h tr -> arrived id b = [] -> manageable (arrived id a) -> unbroken id (a ++ b) ->
  (3 * length (arrived id a) < moves id b)%nat ->
  delivered id (inner tr) = fst (says env key (arrived id a)) /\
  match snd (says env key (arrived id a)) with GotErr _ => is_shut (inner tr) id = true | Waiting => True | _ => False end.
Proof.
  intros H AB M U MV. pose proof (received_prefix _ _ _ _ _ _ _ id H) as PRE. destruct H as (sv & S & K & L & R).
  destruct (runs_hinv _ _ _ _ _ _ _ _ S K L R) as (V & O). pose proof (hv_conn _ _ _ _ _ _ _ V id) as HC. rewrite O, arrived_app, AB, app_nil_r in HC. rewrite arrived_app, AB, app_nil_r in PRE.
  destruct (list_eq_dec Z.eq_dec (arrived id a) []) as [N|N].
  { rewrite N in *. cbn in *. split; auto. destruct PRE as (c & PRE). destruct (delivered id (inner tr)); [reflexivity|discriminate]. }
  assert (IN : In id (accepted a)). { apply arrived_accepted; auto. apply (hlegal_pre a b). exact L. }
  pose proof (accepted_once _ _ _ L IN) as NB.
  destruct (host_run_split _ _ _ _ _ _ _ R) as (h1 & t1 & t2 & R1 & R2 & ->).
  destruct (runs_hinv _ _ _ _ _ _ _ _ S K (hlegal_pre _ _ L) R1) as (V1 & O1). pose proof (hv_conn _ _ _ _ _ _ _ V1 id) as HC1. rewrite O1 in HC1.
  destruct (conn_get (ho_conns h1) id) as [c1|] eqn:G1; [|exfalso; apply HC1; exact IN].
  assert (LD : (load (rcv (ho_conns h1) id) <= 3 * length (arrived id a) + 1)%nat).
  { unfold rcv. rewrite G1. cbn [option_map load]. destruct HC1 as (_ & [_ (past & rest & A & _ & Q)] & _). rewrite A, app_length.
    destruct (cn_at c1).
    - rewrite Q, app_length. lia.
    - destruct Q as (-> & _). rewrite app_length. lia.
    - lia. }
  assert (AR : at_rest (rcv (ho_conns h) id)).
  { destruct (comes_to_rest _ _ id b _ _ _ R2 AB NB) as [X|(X & NR)]; auto. exfalso. apply NR.
    assert (Z0 : (load (rcv (ho_conns h) id) = 0)%nat) by lia. unfold load in Z0. destruct (rcv (ho_conns h) id) as [[[i bb] p]|]; [|exact Logic.I].
    destruct p; cbn [at_rest]; [lia| |left; auto]. right. split; auto. destruct i; auto. cbn in Z0. lia. }
  unfold rcv in AR. destruct (conn_get (ho_conns h) id) as [c|] eqn:G.
  2:{ exfalso. apply HC. rewrite accepted_app, in_app_iff. auto. }
  destruct HC as (_ & [_ (past & rest & A & P & Q)] & _). rewrite arrived_app, AB, app_nil_r in A, Q. cbn [option_map at_rest] in AR. rewrite A, P. cbn [fst snd]. rewrite ?O in Q. destruct AR as [AR|(AR & AI)]; rewrite AR in Q.
  - destruct Q as (SH & [(e & E)|[X|X]]).
    + rewrite E. cbn [fst snd]. rewrite app_nil_r. auto.
    + exfalso. apply X. exact M.
    + exfalso. apply X. exact U.
  - destruct Q as (Q & I). rewrite AI, app_nil_r in Q. subst rest. rewrite (says_open _ _ _ I). cbn. rewrite app_nil_r. auto.
Qed.

(** ** What crashes *)
Lemma says_fixed env key s d : snd (says env key s) <> Waiting -> says env key (s ++ d) = says env key s.
Proof.
  remember (length s) as n eqn:E. revert s E. induction n as [n IH] using lt_wf_ind. intros s E W. destruct (shapes s) as [|x g r H Hr|f H|f r H].
  - exfalso. apply W. reflexivity.
  - rewrite <- app_assoc. unfold says. destruct (runs_app (x :: g) r H) as (r0 & l & _ & G). destruct (runs_app (x :: g) (r ++ d) H) as (r1 & l1 & _ & G1). rewrite G, G1. reflexivity.
  - exfalso. apply W. rewrite says_open; [reflexivity|right; eauto].
  - cbn [app]. rewrite <- app_assoc. cbn [app]. destruct (msg_decode env key (around f)) as [m|e|] eqn:D.
    + rewrite !(says_frame _ _ _ _ _ H D). rewrite (says_frame _ _ _ _ _ H D) in W. cbn [snd] in W. rewrite (IH (length r)); auto. subst n. cbn [length]. rewrite app_length. cbn [length]. lia.
    + unfold says. rewrite !runs_frame, !ue_frame, D by auto. reflexivity.
    + unfold says. rewrite !runs_frame, !ue_frame, D by auto. reflexivity.
Qed.
Lemma says_crash env key s : key_ok env key -> bytes_ok s ->
  (snd (says env key s) = GotPanic <-> exists fs ms x rest, Forall2 (fun f m => ~ In 126 f /\ msg_decode env key (around f) = Ok m) fs ms /\ x <> 126 /\ s = concat (map around fs) ++ [126; x; 126] ++ rest).
Proof.
  intros K. remember (length s) as n eqn:E. revert s E. induction n as [n IH] using lt_wf_ind. intros s E B. split.
  - intros W. destruct (shapes s) as [|x g r H Hr|f H|f r H].
    + discriminate.
    + exfalso. unfold says in W. destruct (runs_app (x :: g) r H) as (r0 & l & _ & G). rewrite G in W. discriminate.
    + exfalso. rewrite says_open in W; [discriminate|right; eauto].
    + destruct (msg_decode env key (around f)) as [m|e|] eqn:D.
      * rewrite (says_frame _ _ _ _ _ H D) in W. cbn [snd] in W.
        assert (BR : bytes_ok r). { change (126 :: f ++ 126 :: r) with ([126] ++ f ++ [126] ++ r) in B. rewrite !app_assoc in B. apply bytes_ok_app in B. apply B. }
        assert (LT : (length r < n)%nat). { subst n. cbn [length]. rewrite app_length. cbn [length]. lia. }
        apply (proj1 (IH _ LT r eq_refl BR)) in W. destruct W as (fs & ms & x & rest & F & N & ->). exists (f :: fs), (m :: ms), x, rest. split; [constructor; auto|]. split; auto. cbn [map concat]. unfold around at 2. rewrite <- !app_assoc. reflexivity.
      * exfalso. unfold says in W. rewrite !runs_frame, !ue_frame, D in W by auto. discriminate.
      * apply decode_panic in D; auto.
        2:{ change (126 :: f ++ 126 :: r) with ([126] ++ f ++ [126] ++ r) in B. rewrite !app_assoc in B. apply bytes_ok_app in B. unfold around. rewrite app_assoc. apply B. }
        destruct D as (x & D). unfold around in D. cbn [app] in D. injection D as D. destruct f as [|y f]; [discriminate|]. cbn [app] in D. injection D as -> D. destruct f as [|z f]; [|destruct f; discriminate].
        exists [], [], x, r. split; [constructor|]. split; [|reflexivity]. intros ->. apply H. cbn. auto.
  - intros (fs & ms & x & rest & F & N & ->). clear IH E. induction F as [|f m fs ms (H & D) F IHF].
    + cbn [map concat app]. change (126 :: x :: 126 :: rest) with (126 :: [x] ++ 126 :: rest). unfold says. assert (NX : ~ In 126 [x]) by (cbn; intuition). rewrite runs_frame, ue_frame by auto.
      replace (msg_decode env key (around [x])) with (@Panic message); [reflexivity|]. symmetry. apply decode_panic; auto.
      * cbn [map concat app] in B. change (126 :: x :: 126 :: rest) with (around [x] ++ rest) in B. apply bytes_ok_app in B. apply B.
      * exists x. reflexivity.
    + cbn [map concat] in B |- *. rewrite <- app_assoc in B |- *. unfold around at 1. cbn [app]. rewrite <- app_assoc. cbn [app]. rewrite (says_frame _ _ _ _ _ H D). cbn [snd]. apply IHF. apply bytes_ok_app in B. apply B.
Qed.

(** Where sent messages come from *)
Definition carries (m : message) (e : entity) : Prop := exists icc n, m = Message (Header (entity_id e) 0 icc n None) (BEnt e).
Definition given (T : trace) (e : entity) : Prop := In (OBroadcast e) (ops_of T) \/ exists id, In (OSendTo id e) (ops_of T) \/ exists tok, In (ORequest id tok e) (ops_of T).
Lemma sending_carries mg prior T i e evs id m : sending mg prior T i e evs -> In m (sends_to id evs) -> carries m e.
Proof.
  unfold sending. intros S I. destruct (is_shut T i); [subst; contradiction|]. destruct (blocked (ops_of T) i); [subst; contradiction|]. subst evs. cbn [sends_to flat_map app] in I.
  destruct (i =? id); [|contradiction]. destruct I as [<-|[]]. do 2 eexists. reflexivity.
Qed.
Lemma effect_carries mg ka prior T op evs id m : effect mg ka prior T op evs -> In m (sends_to id evs) ->
  exists e, carries m e /\ ((exists m0 r, e = response m0 r) \/ op = OBroadcast e \/ exists i, op = OSendTo i e \/ exists tok, op = ORequest i tok e).
Proof.
  intros E I. destruct op; cbn [effect] in *; try (subst; contradiction).
  - unfold delivery in E. destruct (has_body m0).
    + destruct (part_of mg m0) as [[[mf sq] data]|].
      * destruct (completes _ _).
        -- destruct E as (c & e1 & e2 & _ & -> & S & D). apply dispatching_sends with (id := id) in D. rewrite sends_to_app, D, app_nil_r in I. exists (response m0 0). split; [eapply sending_carries; eauto|eauto].
        -- exists (response m0 0). split; [eapply sending_carries; eauto|eauto].
      * apply dispatching_sends with (id := id) in E. rewrite E in I. contradiction.
    + exists (response m0 3). split; [eapply sending_carries; eauto|eauto].
  - subst evs. unfold shut_if in I. destruct (open T id0); contradiction.
  - destruct E as [(-> & _)|(-> & _)]; contradiction.
  - destruct E as (keys & _ & ->). rewrite (shut_flat_sends (fun i => registered T i && open T i)) in I. contradiction.
  - destruct E as (ids & blocks & _ & _ & F & ->). rewrite sends_to_app in I. cbn [sends_to flat_map] in I. rewrite app_nil_r in I. exists e. split; auto.
    induction F as [|i b ids blocks S F IH]; [contradiction|]. cbn [concat] in I. rewrite sends_to_app in I. apply in_app_iff in I. destruct I as [I|I]; [eapply sending_carries; eauto|auto].
  - exists e. destruct (connected T id0); [|subst; contradiction]. split; [eapply sending_carries; eauto|eauto].
  - exists e. destruct (connected T id0); [|subst; contradiction]. split; [eapply sending_carries; eauto|eauto 6].
Qed.
Lemma given_app T x e : given T e -> given (T ++ x) e.
Proof. unfold given, ops_of. rewrite map_app. intros [B|(i & [B|(tok & B)])]; [left|right; exists i; left|right; exists i; right; exists tok]; apply in_app_iff; auto. Qed.
Lemma given_last T op evs e : op = OBroadcast e \/ (exists i, op = OSendTo i e \/ exists tok, op = ORequest i tok e) -> given (T ++ [(op, evs)]) e.
Proof. unfold given, ops_of. rewrite map_app. cbn [map fst]. intros [->|(i & [->|(tok & ->)])]; [left|right; exists i; left|right; exists i; right; exists tok]; apply in_app_iff; cbn; auto. Qed.
Lemma sent_carries mg ka prior T id m : exact mg ka prior T -> In m (sent_to id T) -> exists e, carries m e /\ ((exists m0 r, e = response m0 r) \/ given T e).
Proof.
  induction T as [|[op evs] T IH] using rev_ind; intros X I; [contradiction|]. rewrite sent_to_app in I. apply in_app_iff in I. destruct I as [I|I].
  - assert (X1 : exact mg ka prior T). { intros pre p es post E. apply (X pre p es (post ++ [(op, evs)])). rewrite E, <- app_assoc. reflexivity. }
    destruct (IH X1 I) as (e & A & B). exists e. split; auto. destruct B as [B|B]; auto. right. apply given_app. exact B.
  - rewrite sent_to_eq in I. cbn [effects flat_map snd] in I. rewrite app_nil_r in I. destruct (effect_carries _ _ _ _ _ _ id m (X T op evs [] eq_refl) I) as (e & A & B). exists e. split; auto.
    destruct B as [B|B]; auto. right. apply given_last. exact B.
Qed.
Lemma does_in op evs x es : does op evs -> In (x, es) (served evs) -> x = op \/ exists i b, x = OQueue i b.
Proof.
  intros (es0 & q & -> & F) I. cbn [served flat_map] in I. destruct I as [I|I]; [injection I as <- _; auto|]. right. apply in_flat_map in I. destruct I as (ev & I1 & I2).
  rewrite Forall_forall in F. destruct (F _ I1) as (i & b & ->). destruct I2 as [I2|[]]. injection I2 as <- _. eauto.
Qed.
Lemma caused op evs x es : causes op evs -> In (x, es) (served evs) -> op = HOp x \/ (exists i b, x = OQueue i b) \/ (exists i, x = OClose i) \/ exists i now m, x = ODeliver i now m.
Proof.
  intros C I. destruct op; cbn [causes] in C; try (subst; contradiction).
  - destruct (does_in _ _ _ _ C I) as [->|]; auto.
  - destruct C as [->|[C|(m & C)]]; [contradiction| |]; destruct (does_in _ _ _ _ C I) as [->|]; eauto 10.
  - apply in_flat_map in I. destruct I as (ev & I1 & I2). rewrite Forall_forall in C. destruct (C _ I1) as (i & b & ->). destruct I2 as [I2|[]]. injection I2 as <- _. eauto.
  - destruct C as [->|[(d & ->)|C]]; [contradiction..|]. destruct (does_in _ _ _ _ C I) as [->|]; eauto.
Qed.
Lemma inner_caused tr op : Forall (fun x => causes (fst x) (snd x)) tr -> In op (ops_of (inner tr)) ->
  In (HOp op) (hops tr) \/ (exists i b, op = OQueue i b) \/ (exists i, op = OClose i) \/ exists i now m, op = ODeliver i now m.
Proof.
  intros F I. unfold ops_of in I. apply in_map_iff in I. destruct I as ([x es] & <- & I). unfold inner in I. apply in_flat_map in I. destruct I as ([hop evs] & I1 & I2). rewrite Forall_forall in F.
  destruct (caused _ _ _ _ (F _ I1) I2) as [E|E]; auto. left. cbn [fst] in *. subst hop. apply in_map_iff. exists (HOp x, evs). auto.
Qed.
Lemma given_handed tr e : Forall (fun x => causes (fst x) (snd x)) tr -> given (inner tr) e -> handed (hops tr) e.
Proof.
  intros F [I|(id & [I|(tok & I)])]; destruct (inner_caused _ _ F I) as [J|[(i & b & J)|[(i & J)|(i & now & m & J)]]]; try discriminate; unfold handed; eauto.
Qed.
Lemma encode_plain env m e : carries m e -> (msg_encode env None 0 m = Panic <-> encode env e = Panic).
Proof.
  intros (icc & n & ->). unfold msg_encode, enc_body. cbn [m_body m_hdr]. destruct (encode env e) as [raw|er|]; cbn [bind]; [|split; congruence|tauto]. split; [|congruence].
  cbn [body_id bind h_prop]. unfold set_body_size. destruct (u16 (zlen raw) >? 1023) eqn:G; cbn [bind]; [discriminate|]. change (Z.shiftl (Z.shiftr 0 10) 10) with 0. rewrite Z.lor_0_l.
  unfold hdr_encode, set_prop, set_id. cbn [h_packet h_prop h_id h_icc h_serial bind].
  replace (is_enable_packet (u16 (zlen raw))) with false; [cbn [bind]; discriminate|]. symmetry. rewrite is_enable_packet_bit.
  assert (B : 0 <= u16 (zlen raw) < 2 ^ 10) by (unfold u16 in *; lia). rewrite <- (Z.mod_small _ _ B). apply Z.mod_pow2_bits_high. lia.
Qed.
Lemma response_tame env m r : encode env (response m r) <> Panic. Proof. unfold response. cbn. discriminate. Qed.
(** No crash without a cause *)
Lemma crash_cause env key o prior sv ops : starts o prior sv -> key_ok env key -> hlegal ops -> host_run env key (Host sv []) ops = Panic ->
  (exists id, snd (says env key (arrived id ops)) = GotPanic) \/ exists e, handed ops e /\ encode env e = Panic.
Proof.
  intros S K L R. destruct (host_all env key o prior sv K ops [] _ (host_start env key o prior sv S) L) as [(h' & tr' & E & _)|(_ & pre & op & post & h1 & t1 & E & R1 & V & O & C)]; [congruence|].
  cbn [app] in *. destruct op; cbn [crashes] in C; try contradiction.
  - left. exists id. rewrite E, arrived_app, says_fixed; [rewrite <- O; exact C|rewrite <- O, C; discriminate].
  - right. destruct C as (m & I & T). destruct (sent_carries _ _ _ _ _ _ (proj1 (proj2 (hv_core _ _ _ _ _ _ _ V))) I) as (e & A & B).
    assert (P : encode env e = Panic). { apply (encode_plain env m e A). unfold tame in T. destruct (msg_encode env None 0 m); auto; exfalso; apply T; discriminate. }
    destruct B as [(m0 & r & ->)|B]; [exfalso; revert P; apply response_tame|]. exists e. split; auto. apply given_handed in B; [|eapply run_causes; eauto]. rewrite O in B. rewrite E.
    destruct B as [B|(i & [B|(tok & B)])]; [left|right; exists i; left|right; exists i; right; exists tok]; apply in_app_iff; auto.
Qed.
(** ... and none but a crash when the bytes demand one. *)
Lemma crash_sure env key o prior sv a b id : starts o prior sv -> key_ok env key -> hlegal (a ++ b) -> arrived id b = [] -> manageable (arrived id a) -> unbroken id (a ++ b) ->
  (3 * length (arrived id a) < moves id b)%nat -> snd (says env key (arrived id a)) = GotPanic -> host_run env key (Host sv []) (a ++ b) = Panic.
Proof.
  intros S K L AB M U MV P. destruct (host_run env key (Host sv []) (a ++ b)) as [[h tr]|e|] eqn:R; auto; exfalso.
  - assert (H : hruns env key o prior (a ++ b) h tr) by (exists sv; auto). destruct (heard_all _ _ _ _ _ _ _ _ id H AB M U MV) as (_ & X). rewrite P in X. exact X.
  - destruct (host_all env key o prior sv K (a ++ b) [] _ (host_start env key o prior sv S) L) as [(h' & tr' & E & _)|(E & _)]; congruence.
Qed.
(** Any process is three bytes from a crash. *)
Lemma three_bytes env key o prior ops h tr id x now : hruns env key o prior ops h tr -> ~ In id (accepted ops) -> is_byte x -> x <> 126 ->
  host_run env key h [HOp (OConnect id now); HArrive id [126; x; 126]; HTurn id now (Avail 3); HTurn id now (Avail 3)] = Panic.
Proof.
  intros (sv & S & K & L & R) N B X. destruct (runs_hinv _ _ _ _ _ _ _ _ S K L R) as (V & O).
  destruct (hstep_all env key o prior sv K tr h (HOp (OConnect id now)) V) as [(h1 & evs & E & V1)|(_ & [])]; [cbn [hlegal_op]; rewrite O; exact N|].
  assert (RC : rcv (ho_conns h1) id = Some ([], [], AtStart)). { cbn [host_step] in E. rewrite (rcv_perform _ _ _ _ id E), rcv_set, Z.eqb_refl. reflexivity. }
  assert (BX : bytes_ok [126; x; 126]). { constructor; [cbv; intuition congruence|]. constructor; [exact B|]. constructor; [cbv; intuition congruence|constructor]. }
  cbn [host_run]. rewrite E. cbn [bind]. clear E V1. unfold rcv in RC. destruct (conn_get (ho_conns h1) id) as [c|] eqn:G; [|discriminate]. injection RC as R1 R2 R3.
  cbn [host_step]. rewrite G. cbn [bind]. rewrite R1, R2, R3. unfold turn at 1. cbn [set_conn ho_conns]. rewrite conn_get_set, Z.eqb_refl. cbn [with_recv cn_at cn_buf]. cbn [read_from_buffer consume cn_in bind].
  unfold turn. cbn [set_conn ho_conns]. rewrite conn_get_set, Z.eqb_refl. cbn [with_recv cn_at cn_buf cn_in app].
  change (firstn (Nat.max 1 (Nat.min 3 128)) [126; x; 126]) with (126 :: [x] ++ 126 :: []). cbv zeta. change (65535 <? zlen ([] ++ 126 :: [x] ++ [126])) with false. cbv iota.
  cbn [app]. change [126; x; 126] with (126 :: [x] ++ 126 :: []). rewrite rfb_frame by (cbn; intuition).
  replace (msg_decode env key (around [x])) with (@Panic message); [reflexivity|]. symmetry. apply decode_panic; auto. exists x. reflexivity.
Qed.
