(** The whole process goroutine by goroutine: receiving, writing, crashes. *)
From Verif Require Import Base LibBase Env EntTerm EntPlat Registry Message Codec Timer Session Multipart Server Host Overlap Fine World.
From Verif Require Import SpecGeo SpecEntity SpecMsg SpecStream SpecSession SpecMulti SpecTimer SpecServer SpecHost SpecOverlap SpecFine SpecWorld.
From Verif Require Import ProofStream ProofStream2 ProofMsg ProofMsg2 ProofServer4 ProofServer6 ProofOverlap ProofOverlap2 ProofHost ProofHost2 ProofHost3 ProofHost6 ProofFine ProofFine2 ProofFine5 ProofFine6 ProofFine7 ProofFine9 ProofFine10 ProofFine13 ProofWorld ProofWorld2 ProofWorld3 ProofWorld4 ProofWorld5 ProofWorld6 ProofWorld7.

Section World.
Variables (env : Env) (key : option Z) (merging : bool) (ka : Z) (f : fs) (evs : list wevent).
Lemma occurred : occurs env key merging ka f evs -> exists w, winv env key merging ka evs w.
Proof. intros H. eapply occurs_inv; eauto. apply H. Qed.
Lemma inside_happens : occurs env key merging ka f evs -> happens merging ka (inside evs).
Proof. intros H. destruct (occurred H) as (w & V). destruct (wi_run _ _ _ _ _ _ V) as (ops & G & R). exists ops, (wo_fine w). auto. Qed.
Lemma got_prefix id : occurs env key merging ka f evs -> is_prefix (got_by id (inside evs)) (fst (says env key (came id evs))).
Proof.
  intros H. destruct (occurred H) as (w & V). pose proof (wi_conn _ _ _ _ _ _ V id) as C. destruct (conn_get _ id) as [c|], (fobj_get _ id) as [o|]; try contradiction.
  - destruct C as ([_ (past & rest & A & P & _)] & _). rewrite A, P. eexists. reflexivity.
  - destruct C as (-> & _ & -> & _). eexists. reflexivity.
Qed.
Lemma end_reason id a b : occurs env key merging ka f evs -> evs = a ++ WFine (XFail id) :: b -> ends_because env key id a.
Proof. intros H E. destruct (occurred H) as (w & V). eapply (wi_why _ _ _ _ _ _ V); eauto. Qed.
Lemma wrote_prefix id : occurs env key merging ka f evs -> exists ws rest, handed id (inside evs) = ws ++ rest /\ Forall2 (frame_of env) ws (wrote id evs) /\ (length rest <= 25)%nat.
Proof.
  intros H. destruct (occurred H) as (w & V). pose proof (wi_conn _ _ _ _ _ _ V id) as C. destruct (conn_get _ id) as [c|], (fobj_get _ id) as [o|]; try contradiction.
  - destruct C as (_ & [(ws & lost & S & F & _ & LO) _ Q _ _]). exists ws, (lost ++ in_flight c ++ cn_queue c). split; [exact S|]. split; [exact F|]. rewrite app_assoc, app_length. lia.
  - destruct C as (_ & -> & _ & ->). exists [], []. split; [reflexivity|]. split; [constructor|cbn; lia].
Qed.
End World.

(** ** Crashes *)
Lemma reply_entities merging ka evs id tok e : happens merging ka evs -> In (XReply id tok e) evs -> exists m r, e = response m r.
Proof.
  intros (ops & s & G & R) I. set (P := fun (evs : list fevent) (s : Fine.fine) => (forall id tok e, In (XReply id tok e) evs -> exists m r, e = response m r) /\
    forall id o e p, fobj_get (fi_objs s) id = Some o -> fo_pc o = GReply e p -> exists m r, e = response m r).
  enough (X : P ([] ++ evs) s) by (eapply (proj1 X); eauto). apply (frun_keeps P) with (ops := ops) (s := fine_init merging ka); auto; [|split; [intros ? ? ? []|discriminate]].
  clear. intros evs s e s' (P1 & P2) D. split.
  - intros id tok e' I. apply in_app_iff in I as [I|I]; [eauto|]. destruct D; try (cbn in I; intuition (try discriminate); fail).
    + destruct I as [I|[]]. injection I as -> _ ->. eauto.
    + exfalso. destruct I as [I|I]; [discriminate|]. apply in_app_iff in I as [I|I]; [destruct closes; [destruct I as [I|[]]; discriminate|contradiction]|].
      match goal with X : returned _ _ _ = _ |- _ => rename X into HR end. unfold returned in HR. cbn [fo_pc with_cfg] in HR. destruct (fo_pc o) as [| | | | | | |t0 p| | | | | | |]; try (injection HR as <- <-; contradiction). destruct (t0 =? tok0); injection HR as <- <-; [destruct I as [I|[]]; discriminate|contradiction].
  - intros i x e' p' Gx Px.
    assert (SAME : forall j o0, fobj_get (fi_objs s) j = Some o0 -> forall y, fobj_get (fobj_set (fi_objs s) j y) i = Some x -> (fo_pc y = GReply e' p' -> (exists m r, e' = response m r)) -> exists m r, e' = response m r).
    { intros j o0 Gj y Gy K. rewrite fobj_get_set in Gy. destruct (Z.eqb_spec j i) as [->|]; [injection Gy as ->; auto|eauto]. }
    destruct D; cbn [fi_objs set_fobj set_tc set_freg set_casts set_tick count_tok] in Gx; try (eauto; fail);
      try (eapply SAME; [eassumption|exact Gx|]; cbn [fo_pc at_pc with_cfg fshut at_close]; try discriminate; eauto; try (destruct k; discriminate); try (destruct p; discriminate); try (destruct h; discriminate); try (destruct (taken _ _); discriminate); try (destruct c; discriminate); fail).
    + rewrite fobj_get_set in Gx. destruct (id =? i); [injection Gx as <-; discriminate|eauto].
    + eapply SAME; [eassumption|exact Gx|]. cbn [fo_pc at_pc]. intros ->. match goal with X : on_message _ _ = _ |- _ => rename X into OM end. unfold on_message in OM.
      destruct (m_body m) as [|n|b]; try (injection OM as <- _; unfold reply_entity; exists m, 3; reflexivity). destruct (_ || _); [discriminate|]. destruct b; try discriminate. destruct (h_packet _); [|discriminate]. destruct (a0801_packet _); discriminate.
    + eapply SAME; [eassumption|exact Gx|]. cbn [fo_pc at_pc]. destruct ok; intros X; injection X as <- _; [exists m, 0|exists m, 1]; reflexivity.
    + rewrite !fobj_get_set in Gx. destruct (id =? i); [injection Gx as <-; discriminate|eauto].
    + eapply SAME; [eassumption|exact Gx|]. match goal with X : returned _ _ _ = _ |- _ => rename X into HR end. unfold returned in HR. cbn [fo_pc with_cfg] in HR. intros X.
      assert (Y : fo_pc o1 = GReply e' p') by (destruct closes; exact X). clear X. destruct (fo_pc o) as [| | | | | | |t0 p| | | | | | |] eqn:Po; try (injection HR as <- <-; cbn in Y; rewrite Po in Y; discriminate || (eapply P2; [eassumption|rewrite Po; exact Y])).
      destruct (t0 =? tok); injection HR as <- <-; cbn in Y; [destruct p; discriminate|rewrite Po in Y; discriminate].
Qed.
Lemma handed_entity merging ka evs id m : happens merging ka evs -> In m (handed id evs) -> exists e, carries m e /\ ((exists m0 r, e = response m0 r) \/ passed id e evs).
Proof.
  intros H I. unfold handed in I. apply in_flat_map in I as (ev & I1 & I2). destruct ev; try contradiction. destruct sent as [m'|]; [|contradiction]. destruct (Z.eqb_spec id0 id) as [EI|]; [subst id0|contradiction].
  destruct I2 as [->|[]]. apply in_split in I1 as (a & b & E). destruct (wire_message _ _ _ H _ _ _ _ _ E) as (_ & a1 & ev & b1 & cb & e & n & Ea & B & _ & [X|X]); [discriminate|]. injection X as ->.
  exists e. split; [do 2 eexists; reflexivity|]. assert (I : In ev evs) by (rewrite E, Ea, !in_app_iff; cbn; auto). destruct ev; try discriminate; cbn in B; injection B as -> -> <- ->.
  - left. eapply reply_entities; eauto.
  - right. exists tok. left. eauto.
  - right. exists tok. right. eauto.
Qed.
Lemma world_crash env key merging ka f ops : key_ok env key -> wlegal ops -> wrun env key (world_init merging ka f) ops = Panic ->
  exists pre op post w evs, ops = pre ++ op :: post /\ wrun env key (world_init merging ka f) pre = Ok (w, evs) /\
    ((exists id, snd (says env key (came id evs)) = GotPanic) \/ exists id e, passed id e (inside evs) /\ encode env e = Panic).
Proof.
  intros K L R. destruct (wrun_ok env key merging ka K ops [] _ (init_inv env key merging ka f) L) as [(w' & e & E & _)|(_ & pre & op & post & w1 & e1 & E & R1 & S1 & C)]; [congruence|].
  exists pre, op, post, w1, e1. split; auto. split; auto. destruct C as [C|(id & m & I & T)]; [left; exact C|]. right.
  assert (H : happens merging ka (inside e1)). { eapply inside_happens. split; [exact K|]. exists pre, w1. split; [|exact R1]. rewrite E in L. unfold wlegal in *. apply Forall_app in L. tauto. }
  destruct (handed_entity _ _ _ _ _ H I) as (e & A & B).
  assert (P : encode env e = Panic). { apply (encode_plain env m e A). unfold tame in T. destruct (msg_encode env None 0 m); auto; exfalso; apply T; discriminate. }
  destruct B as [(m0 & r & ->)|B]; [exfalso; revert P; apply response_tame|]. exists id, e. auto.
Qed.
