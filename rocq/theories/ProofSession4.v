(** What a session sends; histories that show what does not hold. *)
From Coq Require Import Permutation FinFun.
From Verif Require Import Base LibBase Bits GoTime Decimal Env EntTerm EntPlat Registry Message Codec Session SpecSession Demo ProofSession ProofSession2 ProofSession3.

(** ** Keys make no difference to Send *)
Lemma encode_rnd env a b m : msg_encode env None a m = msg_encode env None b m.
Proof. reflexivity. Qed.
Lemma send_plain env pub rnd wr s e : codec_send env pub rnd wr (fst (session_send s e)) = codec_send env None 0 wr (fst (session_send s e)).
Proof. unfold codec_send, session_send. cbn [fst m_hdr h_prop]. change (is_enable_encrypt 0) with false. destruct pub; reflexivity. Qed.
Lemma send_readable : exists env pub rnd s e data m, codec_send env (Some pub) rnd None (fst (session_send s e)) = Ok data /\
  msg_decode env None data = Ok m /\ m_body m = BEnt e /\ Z.testbit (h_prop (m_hdr m)) 10 = false.
Proof.
  exists demo_env, 5, 7, (Session 3 13800138000 []), (E0001 (T0001 125 512 0)). eexists. eexists.
  split; [vm_compute; reflexivity|]. split; [vm_compute; reflexivity|]. split; reflexivity.
Qed.

(** ** Bounds and contents *)
Lemma registered_all e : In (entity_id e) registered.
Proof. destruct e; cbn [entity_id]; unfold registered; cbn [In]; repeat first [left; reflexivity|right]. Qed.
Definition sane (ops : list sop) (c : scfg) : Prop :=
  announced (arrivals ops) (ss_icc (sc_sess c)) /\
  Forall (fun cl => announced (arrivals ops) (cl_icc cl)) (sc_calls c) /\
  Forall (fun m => announced (arrivals ops) (h_icc (m_hdr m)) /\ h_prop (m_hdr m) = 0 /\ h_packet (m_hdr m) = None /\ exists e, m_body m = BEnt e /\ h_id (m_hdr m) = entity_id e) (wired (sc_log c)) /\
  Forall (fun r => In (rq_msgid r) registered) (ss_reqs (sc_sess c)).
Lemma announced_app a b icc : announced a icc -> announced (b ++ a) icc.
Proof. intros [H|(m & A & B)]; [left; auto|right]. exists m. split; auto. apply in_or_app. auto. Qed.
Lemma arrivals_app a b : arrivals (a ++ b) = arrivals a ++ arrivals b. Proof. apply flat_map_app. Qed.
Lemma announced_snoc a b icc : announced a icc -> announced (a ++ b) icc.
Proof. intros [H|(m & A & B)]; [left; auto|right]. exists m. split; auto. apply in_or_app. auto. Qed.
Lemma find_call_in l tok c : find_call l tok = Some c -> In c l.
Proof. induction l as [|x l IH]; cbn; [discriminate|]. destruct (cl_tok x =? tok); [intros H; injection H as ->; auto|auto]. Qed.
Lemma del_call_forall P l tok : Forall P l -> Forall P (del_call l tok).
Proof. intros H. induction H; cbn; [constructor|]. destruct (cl_tok x =? tok); auto. Qed.
Lemma add_forall P l r : Forall P l -> P r -> Forall P (add_request l r).
Proof. intros H R. induction H; cbn; [auto|]. destruct (rq_msgid x =? rq_msgid r); auto. Qed.
Lemma take_forall P l s : Forall P l -> Forall P (snd (take_request l s)).
Proof.
  intros H. pose proof (take_spec l s) as T. destruct (take_request l s) as [[r|] l']; cbn [snd].
  - destruct T as (Q & _). rewrite Forall_forall in *. intros x Hx. apply H. apply (Permutation_in _ (Permutation_sym Q)). right. exact Hx.
  - destruct T as (-> & _). exact H.
Qed.
Lemma sane_more ops o c : sane ops c -> sane (ops ++ [o]) c.
Proof.
  intros (A & B & C & D). rewrite <- (app_nil_r (arrivals ops)) in A. unfold sane. rewrite arrivals_app. rewrite app_nil_r in A.
  split; [apply announced_snoc; auto|]. split; [eapply Forall_impl; [|exact B]; intros; apply announced_snoc; auto|]. split; auto.
  eapply Forall_impl; [|exact C]. cbn beta. intros m (X & Y). split; auto. apply announced_snoc; auto.
Qed.
Lemma sane_step ops o c c' : sane ops c -> sstep c o = Ok c' -> sane (ops ++ [o]) c'.
Proof.
  intros S H. apply (sane_more _ o) in S. unfold sstep in H. destruct o as [tok cb e|tok|tok ok|tok|m|].
  - injection H as <-. destruct S as (A & B & C & D). unfold sane, set_calls. cbn [sc_sess sc_calls sc_log]. auto 6.
  - destruct (find_call (sc_calls c) tok) as [[t' cb e icc [n|] sent]|] eqn:F; injection H as <-; auto.
    destruct S as (A & B & C & D). pose proof (find_call_in _ _ _ F) as Fi. rewrite Forall_forall in B. pose proof (B _ Fi) as Bi. rewrite <- Forall_forall in B.
    unfold sane. cbn [sc_sess sc_calls sc_log ss_icc ss_reqs]. repeat split; auto. constructor; auto. apply del_call_forall; auto.
  - destruct (find_call (sc_calls c) tok) as [[t' cb e icc [n|] [|]]|] eqn:F; try (injection H as <-; assumption).
    destruct S as (A & B & C & D). pose proof (find_call_in _ _ _ F) as Fi. rewrite Forall_forall in B. pose proof (B _ Fi) as Bi. rewrite <- Forall_forall in B. cbn [cl_icc] in Bi.
    pose proof (del_call_forall _ _ tok B) as B'.
    destruct ok; injection H as <-; unfold sane, set_calls; cbn [sc_sess sc_calls sc_log ss_icc ss_reqs]; [|auto].
    split; auto. split; [destruct cb; auto|]. split; auto. change (wired (?x :: ?l)) with ([Message (Header (entity_id e) 0 icc n None) (BEnt e)] ++ wired l). cbn [app].
    constructor; auto. cbn [m_hdr h_icc h_prop h_packet h_id m_body]. split; auto. repeat split. exists e. auto.
  - destruct (find_call (sc_calls c) tok) as [[t' cb e icc [n|] [|]]|] eqn:F; try (injection H as <-; assumption). injection H as <-.
    destruct S as (A & B & C & D). unfold sane. cbn [sc_sess sc_calls sc_log ss_icc ss_reqs]. split; auto. split; [apply del_call_forall; auto|]. split; auto.
    apply add_forall; auto. apply registered_all.
  - destruct (sc_busy c); injection H as <-; auto. destruct S as (A & B & C & D). unfold sane. cbn [sc_sess sc_calls sc_log ss_icc ss_reqs]. split; auto.
    destruct (Z.ltb_spec 0 (h_icc (m_hdr m))); auto. right. exists m. split; auto. rewrite arrivals_app. apply in_or_app. right. left. reflexivity.
  - destruct (sc_busy c) as [m|]; [|injection H as <-; auto]. destruct (reply_serial m) as [s| |]; try discriminate. cbn [bind] in H.
    destruct S as (A & B & C & D). destruct (s =? 0); [injection H as <-; unfold sane; cbn [sc_sess sc_calls sc_log ss_icc ss_reqs]; auto|].
    pose proof (take_forall _ _ s D) as D'. destruct (take_request (ss_reqs (sc_sess c)) s) as [[r|] l]; injection H as <-; unfold sane; cbn [sc_sess sc_calls sc_log ss_icc ss_reqs snd] in *; auto.
Qed.
Lemma sane_run ops : forall pre c c', sane pre c -> srun c ops = Ok c' -> sane (pre ++ ops) c'.
Proof.
  induction ops as [|o ops IH]; intros pre c c' S H; cbn [srun] in H; [injection H as <-; rewrite app_nil_r; auto|].
  destruct (sstep c o) as [c1| |] eqn:E; try discriminate. cbn [bind] in H. replace (pre ++ o :: ops) with ((pre ++ [o]) ++ ops) by (rewrite <- app_assoc; reflexivity).
  eapply IH; eauto. eapply sane_step; eauto.
Qed.
Lemma sane_history ops c : srun sinit ops = Ok c -> sane ops c.
Proof. intros H. apply (sane_run ops [] sinit); auto. repeat split; try constructor. reflexivity. Qed.
Lemma sent_as ops c m : srun sinit ops = Ok c -> In m (wired (sc_log c)) ->
  announced (arrivals ops) (h_icc (m_hdr m)) /\ h_prop (m_hdr m) = 0 /\ h_packet (m_hdr m) = None /\ exists e, m_body m = BEnt e /\ h_id (m_hdr m) = entity_id e.
Proof. intros H M. destruct (sane_history ops c H) as (_ & _ & C & _). rewrite Forall_forall in C. auto. Qed.
Lemma pending_bound ops c : NoDup (started ops) -> srun sinit ops = Ok c -> (length (ss_reqs (sc_sess c)) <= 65)%nat.
Proof.
  intros N H. pose proof (one_per_id ops c N H) as D. destruct (sane_history ops c H) as (_ & _ & _ & R).
  change 65%nat with (length registered). rewrite <- (map_length rq_msgid). apply NoDup_incl_length; auto.
  intros x Hx. apply in_map_iff in Hx. destruct Hx as (r & <- & Hr). rewrite Forall_forall in R. auto.
Qed.
Lemma sent_drawn ops c pre tok m post : NoDup (started ops) -> srun sinit ops = Ok c -> sc_log c = pre ++ EvSent tok m :: post -> In (EvNext tok (h_serial (m_hdr m))) post.
Proof.
  intros N H E. destruct (history ops c N H) as (st & I). pose proof (i_log _ _ I) as L. rewrite E in L. clear E.
  induction pre as [|p pre IH]; cbn [app log_ok] in L; [tauto|]. apply IH. destruct p; tauto.
Qed.

(** ** The 256th message *)
Definition spot : t0200 := T0200 0 0 (Dec 0 0) (Dec 0 0) 0 0 0 (GoTime 0 0 0) [].
Definition answer_0201 (n : Z) : message := Message (Header 513 0 1 9 None) (BEnt (E0201 (T0201 n spot))).
Definition plain_send (t : Z) : list sop := [SStart t false E8104; SNext t; SWire t true].
Definition wrap_history : list sop :=
  [SStart 1 true E8104; SNext 1; SWire 1 true; SAdd 1] ++ flat_map plain_send (map Z.of_nat (seq 2 254)) ++
  [SStart 256 true E8201; SNext 256; SWire 256 true; SAdd 256; SIcc (answer_0201 1); STake].
Lemma wrap_started : NoDup (started wrap_history).
Proof.
  replace (started wrap_history) with (map Z.of_nat (seq 1 256)) by (vm_compute; reflexivity).
  apply Injective_map_NoDup; [|apply seq_NoDup]. intros a b H. lia.
Qed.
Definition log_of (r : res scfg) : list sevent := match r with Ok c => sc_log c | _ => [] end.
Lemma wrong_answer : exists ops c m m1 m2 p1 p2, NoDup (started ops) /\ srun sinit ops = Ok c /\
  sc_log c = EvAnswer 1 m :: EvSent 256 m2 :: p1 ++ EvSent 1 m1 :: p2 /\ ~ In 256 (answered (sc_log c)) /\
  proper m /\ answers m (h_serial (m_hdr m2)) /\ m_body m2 = BEnt E8201 /\ h_id (m_hdr m) = 513 /\ m_body m1 = BEnt E8104.
Proof.
  exists wrap_history. eexists. exists (answer_0201 1), (Message (Header 33028 0 0 1 None) (BEnt E8104)), (Message (Header 33281 0 0 1 None) (BEnt E8201)).
  exists (firstn 509 (skipn 2 (log_of (srun sinit wrap_history)))), [EvNext 1 1].
  split; [exact wrap_started|]. split; [vm_compute; reflexivity|]. split; [vm_compute; reflexivity|].
  split; [cbn; intros [H|[]]; discriminate|]. split; [exists (E0201 (T0201 1 spot)); split; reflexivity|].
  split; [exists (E0201 (T0201 1 spot)); split; [reflexivity|constructor]|]. repeat split.
Qed.

(** ** Lost answers *)
Definition race_history : list sop := [SStart 1 true E8201; SNext 1; SWire 1 true; SIcc (answer_0201 1); STake; SAdd 1].
Lemma race : exists ops c m m0, NoDup (started ops) /\ srun sinit ops = Ok c /\ In (SIcc m) ops /\ proper m /\
  In (EvSent 1 m0) (sc_log c) /\ answers m (h_serial (m_hdr m0)) /\ answered (sc_log c) = [] /\ sc_calls c = [] /\ sc_busy c = None.
Proof.
  exists race_history. eexists. exists (answer_0201 1), (Message (Header 33281 0 0 1 None) (BEnt E8201)).
  split; [repeat constructor; cbn; intuition congruence|]. split; [vm_compute; reflexivity|]. split; [cbn; auto 6|].
  split; [exists (E0201 (T0201 1 spot)); split; reflexivity|]. split; [cbn; auto|].
  split; [exists (E0201 (T0201 1 spot)); split; [reflexivity|constructor]|]. repeat split.
Qed.
Definition replace_history : list sop :=
  [SStart 1 true E8201; SNext 1; SWire 1 true; SAdd 1; SStart 2 true E8201; SNext 2; SWire 2 true; SAdd 2; SIcc (answer_0201 1); STake; SIcc (answer_0201 2); STake].
Lemma replaced_lost : exists ops c m m0, NoDup (started ops) /\ srun sinit ops = Ok c /\ In (SIcc m) ops /\ proper m /\
  In (EvSent 1 m0) (sc_log c) /\ answers m (h_serial (m_hdr m0)) /\ answered (sc_log c) = [2] /\ sc_calls c = [] /\ sc_busy c = None.
Proof.
  exists replace_history. eexists. exists (answer_0201 1), (Message (Header 33281 0 0 1 None) (BEnt E8201)).
  split; [repeat constructor; cbn; intuition congruence|]. split; [vm_compute; reflexivity|]. split; [cbn; auto 12|].
  split; [exists (E0201 (T0201 1 spot)); split; reflexivity|]. split; [cbn; auto|].
  split; [exists (E0201 (T0201 1 spot)); split; [reflexivity|constructor]|]. repeat split.
Qed.
