(** The whole process goroutine by goroutine: when link refuses a message. *)
From Verif Require Import Base LibBase Env EntTerm EntPlat Registry Message Codec Timer Session Multipart Server Host Overlap Fine World.
From Verif Require Import SpecGeo SpecEntity SpecMsg SpecStream SpecSession SpecMulti SpecTimer SpecServer SpecHost SpecOverlap SpecFine SpecWorld.
From Verif Require Import ProofStream ProofStream2 ProofMsg ProofMsg2 ProofServer4 ProofServer6 ProofHost ProofHost2 ProofHost3 ProofFine ProofFine2 ProofFine6 ProofFine13 ProofWorld ProofWorld2 ProofWorld3 ProofWorld4 ProofWorld5 ProofWorld9.

(** ** Only FWire refuses, and says so first *)
Definition refusal (ev : fevent) : bool := match ev with XWire _ _ None => true | _ => false end.
Definition refuses (ev : wevent) : bool := match ev with WFine x => refusal x | _ => false end.
Lemma step_refusal s op s1 e : fstep s op = Ok (s1, e) -> existsb refusal e = false \/
  exists id tok o l, e = XWire id tok None :: l /\ existsb refusal l = false /\ fobj_get (fi_objs s) id = Some o /\ (fo_closed o = true \/ fo_full o = true).
Proof.
  intros E. assert (G : good_op op \/ exists id m, op = FRecv id m) by (destruct op; cbn; eauto). destruct G as [G|(id & m & ->)].
  - destruct (fstep_does _ _ _ _ G E) as [(_ & ->)|D]; [left; reflexivity|]. destruct D; try (left; reflexivity).
    match goal with X : returned _ _ _ = _ |- _ => rename X into HR end. match goal with X : link_send _ = _ |- _ => rename X into LS end. unfold link_send in LS.
    assert (N : existsb refusal evs = false). { unfold returned in HR. destruct (fo_pc (with_cfg o c)); try (injection HR as <- <-; reflexivity). destruct (_ =? _); injection HR as <- <-; reflexivity. }
    destruct (fo_closed o) eqn:C; [injection LS as <- <-|destruct (fo_full o) eqn:F; injection LS as <- <-].
    + right. exists id, tok, o, evs. auto.
    + right. exists id, tok, o, (XShut id :: evs). auto.
    + left. exact N.
  - left. cbn in E. destruct (fobj_get _ id) as [o|]; [|injection E as <- <-; reflexivity]. destruct (fo_pc o); try (injection E as <- <-; reflexivity). destruct (on_message _ m); try discriminate. injection E as <- <-. reflexivity.
Qed.
Lemma refuses_map e : existsb refuses (map WFine e) = existsb refusal e.
Proof. induction e as [|x e IH]; cbn; congruence. Qed.
Lemma act_refusal w op w' ev : act w op = Ok (w', ev) -> existsb refuses ev = false \/
  exists id tok o l, ev = WFine (XWire id tok None) :: l /\ existsb refuses l = false /\ fobj_get (fi_objs (wo_fine w)) id = Some o /\ (fo_closed o = true \/ fo_full o = true).
Proof.
  intros A. destruct (act_load _ _ _ _ A) as (s1 & e & E & -> & _). destruct (step_refusal _ _ _ _ E) as [N|(id & tok & o & l & -> & N & R)]; [left; rewrite refuses_map; exact N|].
  right. exists id, tok, o, (map WFine l). rewrite refuses_map. auto.
Qed.
(** Steps other than FWire refuse nothing. *)
Lemma act_other w op w' ev : act w op = Ok (w', ev) -> match op with FRecv _ _ | FFail _ | FStored _ _ | FMerged _ _ | FShut _ => True | _ => False end -> existsb refuses ev = false.
Proof.
  intros A K. destruct (act_load _ _ _ _ A) as (s1 & e & E & -> & _). rewrite refuses_map. destruct op; try contradiction; cbn in E; destruct (fobj_get _ id) as [o|]; try (injection E as <- <-; reflexivity); try (destruct (fo_pc o); try (injection E as <- <-; reflexivity)).
  all: try (unfold bind in E; destruct (on_message _ m); try discriminate; injection E as <- <-; reflexivity).
  all: unfold fclose in E; cbn [at_pc fo_closed] in E; destruct (fo_closed o); injection E as <- <-; reflexivity.
Qed.

Section World.
Variables (env : Env) (key : option Z) (merging : bool) (ka : Z) (f0 : fs).
Lemma got_quiet w id c r w' ev : got w id c r = Ok (w', ev) -> existsb refuses ev = false.
Proof.
  destruct r as [[m|e| |] b]; cbn [got]; intros E; try discriminate.
  - destruct (act _ (FRecv id m)) as [[w1 e1]| |] eqn:A; try discriminate. injection E as <- <-. eapply act_other; eauto. exact Logic.I.
  - eapply act_other; eauto. exact Logic.I.
  - injection E as <- <-. reflexivity.
Qed.
Lemma wstep_refusal w op w' ev : wstep env key w op = Ok (w', ev) -> existsb refuses ev = false \/
  exists id tok o l, ev = WFine (XWire id tok None) :: l /\ existsb refuses l = false /\ fobj_get (fi_objs (wo_fine w)) id = Some o /\ (fo_closed o = true \/ fo_full o = true).
Proof.
  intros E. destruct op as [op|id d|id r|id|id|id rnd wr|id|id k]; cbn [wstep] in E.
  - assert (A : (ev = [] \/ act w op = Ok (w', ev)) \/ exists id, op = FConnect id) by (destruct op; eauto; left; left; injection E as _ <-; reflexivity).
    destruct A as [[-> |A]|(id & ->)]; [left; reflexivity|eapply act_refusal; eauto|]. left. destruct (conn_get _ id); [injection E as <- <-; reflexivity|].
    destruct (act_load _ _ _ _ E) as (s1 & e & F & -> & _). rewrite refuses_map. cbn in F. destruct (fobj_get _ id); injection F as <- <-; reflexivity.
  - left. destruct (conn_get _ id); injection E as <- <-; reflexivity.
  - left. unfold receive in E. destruct (pc_of (wo_fine w) id) as [p|]; [|injection E as <- <-; reflexivity]. destruct p; try (injection E as <- <-; reflexivity). destruct (conn_get _ id) as [c|]; [|injection E as <- <-; reflexivity].
    destruct (cn_at c); [eapply got_quiet; eauto| |injection E as <- <-; reflexivity]. destruct r as [k|e].
    + cbv zeta in E. destruct (firstn _ (cn_in c)) as [|x l].
      * destruct (is_closed _ _); [eapply act_other; eauto; exact Logic.I|injection E as <- <-; reflexivity].
      * destruct (65535 <? _); [eapply act_other; eauto; exact Logic.I|eapply got_quiet; eauto].
    + destruct (act _ (FFail id)) as [[w1 e1]| |] eqn:A; try discriminate. injection E as <- <-. cbn. eapply act_other; eauto. exact Logic.I.
  - left. unfold access in E. destruct (pc_of (wo_fine w) id) as [p|]; [|injection E as <- <-; reflexivity]. destruct p; try (injection E as <- <-; reflexivity);
      destruct (thread_step (wo_fs w) (wo_up w id)) as [f t]; destruct (th_at (wo_up w id)); try (eapply act_other; eauto; exact Logic.I); destruct (th_at t); try (injection E as <- <-; reflexivity); eapply act_other; eauto; exact Logic.I.
  - left. unfold wtake in E. destruct (conn_get _ id) as [c|]; [|injection E as <- <-; reflexivity]. destruct (cn_sending c); [|injection E as <- <-; reflexivity]. destruct (cn_flight c); [injection E as <- <-; reflexivity|]. destruct (cn_queue c); [injection E as <- <-; reflexivity|].
    cbv zeta in E. unfold queue_now in E. destruct (conn_get _ id); cbn in E; [destruct (fobj_get _ id)|]; injection E as <- <-; reflexivity.
  - left. unfold wwrite in E. destruct (conn_get _ id) as [c|]; [|injection E as <- <-; reflexivity]. destruct (cn_flight c); [|injection E as <- <-; reflexivity]. destruct (codec_send _ _ _ _ _); try discriminate; [injection E as <- <-; reflexivity|].
    destruct (act _ (FShut id)) as [[w1 e1]| |] eqn:A; try discriminate. injection E as <- <-. cbn. eapply act_other; eauto. exact Logic.I.
  - left. injection E as <- <-. reflexivity.
  - left. destruct (conn_get _ id); injection E as <- <-; reflexivity.
Qed.
Lemma split_quiet l : forall a id tok b, existsb refuses l = false -> l <> a ++ WFine (XWire id tok None) :: b.
Proof. induction l as [|x l IH]; intros [|y a] id tok b N E; try discriminate; injection E as -> E; cbn in N; [discriminate|]. apply orb_false_iff in N as (_ & N). eapply IH; eauto. Qed.
Definition refused_rule (evs : list wevent) : Prop := forall id tok a b, evs = a ++ WFine (XWire id tok None) :: b ->
  In (XShut id) (inside a) \/ (length (wrote id a) + 24 <= length (handed id (inside a)))%nat.
Lemma Forall2_len {A B} (R : A -> B -> Prop) l l' : Forall2 R l l' -> length l = length l'.
Proof. induction 1; cbn; congruence. Qed.
Lemma split_app {A} (a b c : list A) x d : a ++ b = c ++ x :: d -> (exists d', a = c ++ x :: d') \/ exists c', c = a ++ c' /\ b = c' ++ x :: d.
Proof.
  revert c. induction a as [|y a IH]; intros c E; [right; exists c; auto|]. destruct c as [|z c]; cbn in E.
  - injection E as -> E. left. exists a. reflexivity.
  - injection E as -> E. destruct (IH _ E) as [(d' & ->)|(c' & -> & ->)]; [left; exists d'; reflexivity|right; exists c'; auto].
Qed.
Lemma refused_run ops : forall evs w w' e, key_ok env key -> winv env key merging ka evs w -> wlegal ops -> refused_rule evs -> wrun env key w ops = Ok (w', e) -> refused_rule (evs ++ e).
Proof.
  induction ops as [|op ops IH]; intros evs w w' e K V L RR E; cbn [wrun] in E.
  - injection E as <- <-. rewrite app_nil_r. exact RR.
  - inversion L; subst. assert (L1 : wlegal [op]) by (constructor; auto). destruct (wstep env key w op) as [[w1 e1]| |] eqn:E1; try discriminate. cbn [bind] in E. destruct (wrun env key w1 ops) as [[w2 e2]| |] eqn:E2; try discriminate. cbn [bind] in E. injection E as <- <-.
    destruct (wstep_ok env key merging ka K evs w op V L1) as [(w1' & e1' & X & V1)|(X & _)]; rewrite E1 in X; [|discriminate]. injection X as <- <-. rewrite app_assoc. apply (IH (evs ++ e1) w1 w2 e2); auto.
    intros id tok a b S. destruct (split_app _ _ _ _ _ S) as [(d & ->)|(c & -> & C)]; [eapply RR; reflexivity|].
    destruct (wstep_refusal _ _ _ _ E1) as [N|(i & t & o & l & -> & N & Go & R)]; [destruct (split_quiet _ _ _ _ _ N C)|].
    destruct c as [|y c]; cbn in C; [|injection C as _ C; destruct (split_quiet _ _ _ _ _ N C)]. injection C as Ei Et El. subst i t l. rewrite app_nil_r. pose proof (wi_conn _ _ _ _ _ _ V id) as W. rewrite Go in W. destruct (conn_get _ id) as [c|]; [|contradiction].
    destruct (fo_closed o) eqn:CL; [left; eapply shut_happened; eauto|]. destruct R as [R|R]; [discriminate|]. right. destruct W as (_ & [(ws & lost & S1 & S2 & S3 & _) S4 _ S5 _]).
    rewrite S5 in R. unfold now_full in R. apply Nat.eqb_eq in R. rewrite S1, !app_length, R. apply Forall2_len in S2. unfold queue_size. lia.
Qed.
Lemma refused evs id tok a b : occurs env key merging ka f0 evs -> evs = a ++ WFine (XWire id tok None) :: b -> In (XShut id) (inside a) \/ (length (wrote id a) + 24 <= length (handed id (inside a)))%nat.
Proof.
  intros (K & ops & w & L & R). apply (refused_run ops [] (world_init merging ka f0) w evs K); auto.
  - apply init_inv.
  - intros i t [|? ?] y E; discriminate.
Qed.
End World.
