(** Histories of Run and Stop. *)
From Verif Require Import Base LibBase Life SpecLife ProofLife ProofLife2.

(** Two calls of Run at the same time on ports 808 and 809, then Stop *)
Definition two_runs : list lop :=
  [LRun 808; LRun 809; LStep 0; LStep 1; LStep 0; LStep 1; LStep 0; LStep 1; LStop; LEnd 0; LEnd 0; LStep 0; LStep 1].
(** Run reaches Serve; two calls of Stop at the same time *)
Definition two_stops : list lop := [LRun 808; LStep 0; LStep 0; LStep 0; LStop; LStop; LEnd 0; LEnd 0; LEnd 1].
(** Stop while Run has assigned the field and not read it again *)
Definition stop_early : list lop := [LRun 808; LStep 0; LStep 0; LStop; LEnd 0; LEnd 0; LStep 0].
(** Run is past its check when Stop is called *)
Definition before_stop : list lop := [LRun 808; LStop].
Definition after_stop : list lop := [LStep 0; LStep 0; LStep 0].
(** The listener fails; nobody calls Stop *)
Definition lost : list lop := [LRun 808; LStep 0; LStep 0; LStep 0; LLost 0].
(** Run, Stop, and Run again on the same port *)
Definition twice : list lop :=
  [LRun 808; LStep 0; LStep 0; LStep 0; LStop; LEnd 0; LEnd 0; LStep 0; LRun 808; LStep 1; LStep 1; LStep 1].

(** Deciding [in_turn] *)
Definition rests_b (s : life) : bool :=
  forallb (fun r => match r with RAccept _ | RBack _ => true | _ => false end) (lf_runs s) &&
  forallb (fun r => match r with SBack => true | _ => false end) (lf_stops s).
Fixpoint in_turn_b (s : life) (os : list lop) : bool :=
  match os with
  | [] => true
  | o :: t => (match o with LRun _ | LStop => rests_b s | _ => true end) &&
              match lstep s o with Ok (s1, _) => in_turn_b s1 t | _ => true end
  end.
Lemma rests_b_ok s : rests_b s = true -> rests s.
Proof.
  unfold rests_b. rewrite andb_true_iff, !forallb_forall. intros [A B]. split; apply Forall_forall; intros x X.
  - apply A in X. destruct x; try discriminate; exact Logic.I.
  - apply B in X. destruct x; try discriminate; reflexivity.
Qed.
Lemma in_turn_b_from os : forall s, in_turn_b s os = true -> forall pre o post s' evs, os = pre ++ o :: post -> begins o ->
  lrun s pre = Ok (s', evs) -> rests s'.
Proof.
  induction os as [|x t IH]; intros s H pre o post s' evs E B R; [destruct pre; discriminate|].
  cbn in H. apply andb_true_iff in H as [H1 H2]. destruct pre as [|y pre].
  - injection E as -> _. cbn in R. injection R as <- _. destruct o; try destruct B; apply rests_b_ok; auto.
  - injection E as <- E. cbn in R. destruct (lstep s x) as [[s1 e1]| |]; try discriminate. cbn in R.
    destruct (lrun s1 pre) as [[s2 e2]| |] eqn:L; try discriminate. cbn in R. injection R as <- _. eapply IH; eauto.
Qed.
Lemma in_turn_b_ok os : in_turn_b life_new os = true -> in_turn os.
Proof. intros H pre o post s evs E B R. eapply in_turn_b_from; eauto. Qed.

(** C158 *)
Lemma orphan_refuted : exists os s evs l, lrun life_new os = Ok (s, evs) /\ Forall (fun r => exists b, r = RBack b) (lf_runs s) /\
  Forall (eq SBack) (lf_stops s) /\ last evs VCleared = VBack 1 BServe /\ In (VStopped 0) evs /\ left_open evs l.
Proof.
  exists two_runs. do 2 eexists. exists 0%nat. split; [reflexivity|]. split; [cbn; repeat constructor; eauto|].
  split; [cbn; repeat constructor|]. split; [reflexivity|]. split; [cbn; tauto|].
  split; [exists 0%nat, 808; cbn; tauto|]. cbn. intuition discriminate.
Qed.
Lemma crash_refuted : lrun life_new two_stops = Panic /\ lrun life_new stop_early = Panic.
Proof. split; reflexivity. Qed.
Lemma late_refuted : exists os1 os2 s1 e1 s2 e2, lrun life_new os1 = Ok (s1, e1) /\ In (VStopped 0) e1 /\
  lrun s1 os2 = Ok (s2, e2) /\ Forall (fun o => ~ begins o) os2 /\ exists i l, In (VServing i l) e2.
Proof.
  exists before_stop, after_stop. do 4 eexists. split; [reflexivity|]. split; [cbn; tauto|]. split; [reflexivity|].
  split; [repeat constructor; cbn; tauto|]. do 2 eexists. cbn. tauto.
Qed.
Lemma dead_refuted : exists os s evs s' i, in_turn os /\ lrun life_new os = Ok (s, evs) /\
  Forall (fun r => exists b, r = RBack b) (lf_runs s) /\ lstep s (LRun 808) = Ok (s', [VBack i BRefused]).
Proof.
  exists lost. do 4 eexists. split; [apply in_turn_b_ok; reflexivity|]. split; [reflexivity|].
  split; [cbn; repeat constructor; eauto|]. reflexivity.
Qed.
Lemma two_runs_case : exists s evs, lrun life_new two_runs = Ok (s, evs) /\ In (VListening 0 0 808) evs /\ left_open evs 0 /\ owner evs = None /\
  (forall k, nth_error (lf_runs s) k <> Some (RAssign 0)) /\ exists s', lrun s [LRun 808; LStep 2] = Ok (s', [VBack 2 BListen]).
Proof.
  eexists (Life _ _ _ _), _. split; [vm_compute; reflexivity|]. split; [left; reflexivity|].
  split; [split; [exists 0%nat, 808; left; reflexivity|]|].
  - intros [X|[X|[X|[X|[X|[X|[X|[X|[X|[X|[X|[]]]]]]]]]]]]; discriminate X.
  - split; [reflexivity|]. split; [intros [|[|[|k]]] X; discriminate X|]. eexists. vm_compute. reflexivity.
Qed.
