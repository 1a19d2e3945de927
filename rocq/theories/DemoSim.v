(** Server.v and Fine.v: an orderly history, and a history of goroutines that is none of Server.v. *)
From Verif Require Import Base LibBase Bits Env EntTerm EntPlat Registry Message Timer Session Multipart Server Fine.
From Verif Require Import SpecSession SpecMulti SpecTimer SpecServer SpecFine SpecSim ProofServer4 DemoServer.

Definition orderly_op (pre : list sv_op) (o : sv_op) : Prop :=
  match o with
  | OConnect id _ => ~ In id (connects pre)
  | OAddCb id => In id (connects pre) /\ ~ In (OAddCb id) pre
  | ODeliver id _ m => In (OAddCb id) pre /\ received m
  | OSendTo id _ | ORequest id _ _ => In id (connects pre)
  | _ => True
  end.
Fixpoint orderly_from (pre ops : list sv_op) : Prop :=
  match ops with [] => True | o :: t => orderly_op pre o /\ orderly_from (pre ++ [o]) t end.
Lemma orderly_from_ok ops : orderly_from [] ops -> orderly ops.
Proof.
  assert (G : forall ops pre, orderly_from pre ops -> forall a o b, ops = a ++ o :: b -> orderly_op (pre ++ a) o).
  { clear. induction ops as [|x ops IH]; intros pre H a o b E; [destruct a; discriminate|]. cbn in H. destruct H as (H1 & H2). destruct a as [|y a]; cbn in E.
    - injection E as <- _. rewrite app_nil_r. exact H1.
    - injection E as <- E. specialize (IH _ H2 _ _ _ E). rewrite <- app_assoc in IH. exact IH. }
  intros H a o b E. exact (G ops [] H a o b E).
Qed.
Lemma traffic_orderly : orderly traffic.
Proof.
  apply orderly_from_ok. unfold traffic. cbn [orderly_from].
  repeat match goal with
         | |- orderly_op _ _ /\ _ => split
         | |- True => exact Logic.I
         | |- orderly_op _ (ODeliver _ _ _) => split; [cbn; tauto|first [wire | unfold received, is_u16; cbn; repeat split; lia]]
         | |- orderly_op _ _ => cbn; intuition (try lia; discriminate)
         end.
Qed.

(** While a message is worked on, nothing is sent on other sessions. *)
Fixpoint alone (cur : option Z) (l : list sight) : bool :=
  match l with
  | [] => true
  | LMessage id _ :: t => alone (Some id) t
  | LEffect (SvSend i _) :: t => match cur with Some id => (i =? id) && alone cur t | None => alone cur t end
  | LEffect _ :: t => alone cur t
  | _ :: t => alone None t
  end.
Lemma sending_alone mg prior tr id e evs i m : sending mg prior tr id e evs -> In (SvSend i m) evs -> i = id.
Proof. unfold sending. destruct (is_shut tr id); [|destruct (blocked _ _)]; intros -> I; cbn in I; intuition congruence. Qed.
Lemma dispatching_alone tr id now m evs i x : dispatching tr id now m evs -> ~ In (SvSend i x) evs.
Proof.
  intros (ans & A & ->) I. apply in_app_or in I. destruct I as [I|I].
  - destruct A as [[-> _]|(r & _ & _ & ->)]; cbn in I; intuition discriminate.
  - destruct (handler_of _ _); cbn in I; intuition discriminate.
Qed.
Lemma delivery_alone mg prior tr id now m evs i x : delivery mg prior tr id now m evs -> In (SvSend i x) evs -> i = id.
Proof.
  unfold delivery. destruct (has_body m); [|apply sending_alone]. destruct (part_of mg m) as [[[mf sq] data]|].
  - destruct (completes _ _); [|apply sending_alone]. intros (c & e1 & e2 & _ & -> & S & D) I. apply in_app_or in I. destruct I as [I|I]; [eapply sending_alone; eauto|]. destruct (dispatching_alone _ _ _ _ _ _ _ D I).
  - intros D I. destruct (dispatching_alone _ _ _ _ _ _ _ D I).
Qed.
Lemma alone_effects evs rest : forall cur, (forall i m, In (SvSend i m) evs -> match cur with Some id => i = id | None => True end) -> (forall c, alone c rest = true) -> alone cur (map LEffect evs ++ rest) = true.
Proof.
  induction evs as [|ev evs IH]; intros cur H R; [apply R|]. assert (T : alone cur (map LEffect evs ++ rest) = true) by (apply IH; [intros i m I; apply (H i m); right; exact I|exact R]).
  destruct ev; cbn [map app alone]; try exact T. destruct cur as [id0|]; [|exact T]. rewrite T, (H _ _ (or_introl eq_refl)), Z.eqb_refl. reflexivity.
Qed.
Lemma sights_alone o prior ops tr : runs o prior ops tr -> forall cur, alone cur (sights tr) = true.
Proof.
  intros R. assert (EX : forall pre op evs post, tr = pre ++ (op, evs) :: post -> effect (opt_auto o) (keepalive o) prior pre op evs) by (intros; eapply server_exact; eauto).
  assert (G : forall post pre, tr = pre ++ post -> forall cur, alone cur (sights post) = true).
  { induction post as [|[op evs] post IH]; intros pre E cur; [reflexivity|]. pose proof (EX pre op evs post E) as EF.
    assert (N : forall c, alone c (sights post) = true) by (apply (IH (pre ++ [(op, evs)])); rewrite <- app_assoc; exact E).
    cbn [sights flat_map fst snd]. rewrite <- app_assoc. fold (sights post).
    destruct op as [id now|id|id now m|id|id|now|e|id e|id tok e|msgid h|id b]; cbn [sight_of_op app alone effect] in *.
    - subst evs. apply (alone_effects [_]); [intros i x [I|[]]; discriminate|exact N].
    - subst evs. apply N.
    - apply alone_effects; [|exact N]. intros i x I. eapply delivery_alone; eauto.
    - subst evs. apply alone_effects; [|exact N]. intros i x I. unfold shut_if in I. destruct (open pre id); cbn in I; intuition discriminate.
    - apply alone_effects; [|exact N]. intros i x I. destruct EF as [[-> _]|[-> _]]; cbn in I; intuition discriminate.
    - apply alone_effects; [|exact N]. intros i x I. exact Logic.I.
    - apply alone_effects; [|exact N]. intros i x I. exact Logic.I.
    - apply alone_effects; [|exact N]. intros i x I. exact Logic.I.
    - apply alone_effects; [|exact N]. intros i x I. exact Logic.I.
    - subst evs. apply N.
    - subst evs. apply N. }
  apply (G tr []). reflexivity.
Qed.
(** Two goroutines have received unsupported messages before one of them answers. *)
Definition overtaking : list fop :=
  [FConnect 1; FClock 1 0; FDel 1; FIns 1; FAddCb 1; FConnect 2; FClock 2 0; FDel 2; FIns 2; FAddCb 2;
   FRecv 1 (strange 138 1); FRecv 2 (strange 139 1); FReply 1; FNext 1 0; FWire 1 0; FReply 2; FNext 2 1; FWire 2 1].
Definition overtaking_events : list fevent := match frun (fine_init false 60) overtaking with Ok (_, evs) => evs | _ => [] end.
Lemma overtaking_happens : happens false 60 overtaking_events.
Proof.
  unfold overtaking_events. destruct (frun (fine_init false 60) overtaking) as [[st evs]| |] eqn:E.
  - exists overtaking, st. split; [|exact E]. unfold fine_received, overtaking. repeat constructor; try wire.
  - vm_compute in E. discriminate.
  - vm_compute in E. discriminate.
Qed.
Lemma overtaking_new o prior ops tr name : runs o prior ops tr -> sights tr <> flat_map (sight_of name) overtaking_events.
Proof. intros R E. pose proof (sights_alone _ _ _ _ R None) as A. rewrite E in A. vm_compute in A. discriminate. Qed.
Theorem goroutines_do_more : exists evs, happens false 60 evs /\ forall o prior ops tr name, runs o prior ops tr -> sights tr <> flat_map (sight_of name) evs.
Proof. exists overtaking_events. split; [exact overtaking_happens|]. intros. eapply overtaking_new; eauto. Qed.
