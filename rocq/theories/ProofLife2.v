(** Run and Stop: calls in turn. *)
From Verif Require Import Base LibBase Life SpecLife ProofLife.

(** Call [i] of Run is at [r], all others rest *)
Definition busy_run (s : life) (i : nat) (r : runner) : Prop :=
  nth_error (lf_runs s) i = Some r /\ (forall k x, k <> i -> nth_error (lf_runs s) k = Some x -> run_rests x) /\ Forall (eq SBack) (lf_stops s).
Definition busy_stop (s : life) (j : nat) (r : stopper) : Prop :=
  nth_error (lf_stops s) j = Some r /\ (forall k x, k <> j -> nth_error (lf_stops s) k = Some x -> x = SBack) /\ Forall run_rests (lf_runs s).
(** Exactly this listener is open *)
Definition only (s : life) (f : option nat) : Prop := forall l, listening (lf_links s) l = true <-> f = Some l.

Inductive turn_inv (s : life) : Prop :=
| TRest : rests s -> only s (lf_field s) -> turn_inv s
| TListen i p : busy_run s i (RListen p) -> lf_field s = None -> only s None -> turn_inv s
| TAssign i l : busy_run s i (RAssign l) -> lf_field s = None -> only s (Some l) -> turn_inv s
| TServe i l : busy_run s i RServe -> lf_field s = Some l -> only s (Some l) -> turn_inv s
| TClose j l : busy_stop s j SClose -> lf_field s = Some l -> only s (Some l) -> turn_inv s
| TClear j l : busy_stop s j SClear -> lf_field s = Some l -> only s None -> turn_inv s.

Lemma Forall_nth {A} (P : A -> Prop) l : Forall P l <-> forall k x, nth_error l k = Some x -> P x.
Proof.
  rewrite Forall_forall. split.
  - intros H k x E. apply H. eapply nth_error_In; eauto.
  - intros H x I. apply In_nth_error in I as [n I]. eauto.
Qed.
Lemma rest_set s i r : Forall run_rests (lf_runs s) -> run_rests r -> Forall run_rests (set_at (lf_runs s) i r).
Proof. rewrite !Forall_nth. intros A B k x E. apply set_at_inv in E as [[_ ->]|[_ E]]; eauto. Qed.
Lemma rest_snoc {A} (P : A -> Prop) l r : Forall P l -> P r -> Forall P (l ++ [r]).
Proof. intros. apply Forall_app. auto. Qed.
Lemma busy_done s i r x : busy_run s i r -> run_rests x -> Forall run_rests (set_at (lf_runs s) i x).
Proof. intros (A & B & C) R. apply Forall_nth. intros k y E. apply set_at_inv in E as [[_ ->]|[N E]]; eauto. Qed.
Lemma stop_done s j r : busy_stop s j r -> Forall (eq SBack) (set_at (lf_stops s) j SBack).
Proof. intros (A & B & C). apply Forall_nth. intros k y E. apply set_at_inv in E as [[_ ->]|[N E]]; auto. symmetry; eauto. Qed.
Lemma run_moves s i r s' r' : busy_run s i r -> lf_runs s' = set_at (lf_runs s) i r' -> lf_stops s' = lf_stops s -> busy_run s' i r'.
Proof.
  intros (A & B & C) E F. split; [rewrite E; eapply set_at_same; eauto|]. split; [|rewrite F; auto].
  intros k x N X. rewrite E, set_at_other in X; eauto.
Qed.
Lemma stop_moves s j r s' r' : busy_stop s j r -> lf_stops s' = set_at (lf_stops s) j r' -> lf_runs s' = lf_runs s -> busy_stop s' j r'.
Proof.
  intros (A & B & C) E F. split; [rewrite E; eapply set_at_same; eauto|]. split; [|rewrite F; auto].
  intros k x N X. rewrite E, set_at_other in X; eauto.
Qed.
Lemma run_new s s' r : rests s -> lf_runs s' = lf_runs s ++ [r] -> lf_stops s' = lf_stops s -> busy_run s' (length (lf_runs s)) r.
Proof.
  intros [A B] E F. split; [rewrite E, nth_error_app2, Nat.sub_diag by auto; reflexivity|]. split; [|rewrite F; auto].
  intros k x N X. rewrite E in X. apply snoc_inv in X as [[X _]|X]; [tauto|]. rewrite Forall_nth in A. eauto.
Qed.
Lemma stop_new s s' r : rests s -> lf_stops s' = lf_stops s ++ [r] -> lf_runs s' = lf_runs s -> busy_stop s' (length (lf_stops s)) r.
Proof.
  intros [A B] E F. split; [rewrite E, nth_error_app2, Nat.sub_diag by auto; reflexivity|]. split; [|rewrite F; auto].
  intros k x N X. rewrite E in X. apply snoc_inv in X as [[X _]|X]; [tauto|]. rewrite Forall_nth in B. symmetry. eauto.
Qed.
(** A resting Run returns *)
Lemma run_other s s' i r k x y : busy_run s i r -> nth_error (lf_runs s) k = Some x -> run_rests x -> ~ run_rests r -> run_rests y ->
  lf_runs s' = set_at (lf_runs s) k y -> lf_stops s' = lf_stops s -> busy_run s' i r.
Proof.
  intros (A & B & C) N X R Y E F. assert (k <> i) by (intros ->; congruence). split; [rewrite E, set_at_other; auto|]. split; [|rewrite F; auto].
  intros m z Nm Z. rewrite E in Z. apply set_at_inv in Z as [[_ ->]|[_ Z]]; eauto.
Qed.
Lemma stop_other s s' j r k y : busy_stop s j r -> run_rests y ->
  lf_runs s' = set_at (lf_runs s) k y -> lf_stops s' = lf_stops s -> busy_stop s' j r.
Proof.
  intros (A & B & C) Y E F. split; [rewrite F; auto|]. split; [rewrite F; auto|]. rewrite E. apply rest_set; auto.
Qed.
Lemma turn_returns s k x y : turn_inv s -> nth_error (lf_runs s) k = Some x -> run_rests x -> run_rests y -> turn_inv (at_run s k y).
Proof.
  intros T N X Y. destruct T as [[R1 R2] O|i p B F O|i l B F O|i l B F O|j l B F O|j l B F O].
  - apply TRest; [split; cbn; [apply rest_set; auto|auto]|exact O].
  - eapply TListen; [eapply run_other; [exact B|exact N|exact X|cbn; tauto|exact Y|reflexivity|reflexivity]|exact F|exact O].
  - eapply TAssign; [eapply run_other; [exact B|exact N|exact X|cbn; tauto|exact Y|reflexivity|reflexivity]|exact F|exact O].
  - eapply TServe; [eapply run_other; [exact B|exact N|exact X|cbn; tauto|exact Y|reflexivity|reflexivity]|exact F|exact O].
  - eapply TClose; [eapply stop_other; [exact B|exact Y|reflexivity|reflexivity]|exact F|exact O].
  - eapply TClear; [eapply stop_other; [exact B|exact Y|reflexivity|reflexivity]|exact F|exact O].
Qed.

Lemma only_none s : only s None -> forall p, taken (lf_links s) p = false.
Proof.
  intros O p. unfold taken. apply andb_false_iff. right. destruct (existsb _ _) eqn:E; auto. exfalso.
  apply existsb_exists in E as (k & I & E). apply andb_true_iff in E as [E _]. apply In_nth_error in I as [n I].
  assert (listening (lf_links s) n = true) as L by (unfold listening; rewrite I; auto). apply O in L. discriminate.
Qed.

Lemma rest_not {s o} : begins o -> turn_inv s -> rests s -> only s (lf_field s).
Proof.
  intros _ T [R1 R2]. rewrite Forall_nth in R1. rewrite Forall_nth in R2.
  destruct T as [_ O|i p B F O|i l B F O|i l B F O|j l B F O|j l B F O]; auto; destruct B as (B & _ & _).
  1,2,3: apply R1 in B; destruct B. all: apply R2 in B; discriminate.
Qed.

Lemma turn_step s o : turn_inv s -> (begins o -> rests s) -> exists s' e, lstep s o = Ok (s', e) /\ turn_inv s'.
Proof.
  intros T H. destruct o as [port|i|i|i| |j]; cbn.
  - specialize (H Logic.I). pose proof (rest_not (o := LRun port) Logic.I T H) as O. destruct (lf_field s) as [l|] eqn:N.
    + do 2 eexists. split; [reflexivity|]. apply TRest; [split; cbn|cbn; exact O]; [apply rest_snoc; [apply H|exact Logic.I]|apply H].
    + do 2 eexists. split; [reflexivity|]. eapply TListen; [eapply run_new; eauto| |]; cbn; auto.
  - destruct (nth_error (lf_runs s) i) as [[port|l| |l|r]|] eqn:N.
    + destruct T as [[R1 R2] O|i' p B F O|i' l B F O|i' l B F O|j l B F O|j l B F O].
      * rewrite Forall_nth in R1. apply R1 in N. destruct N.
      * assert (i = i') as <- by (destruct (Nat.eq_dec i i'); auto; destruct B as (_ & B & _); apply B in N; auto; destruct N).
        rewrite (only_none s O). do 2 eexists. split; [reflexivity|]. eapply (TAssign _ i (length (lf_links s))); [eapply run_moves; eauto|exact F|].
        intros k. cbn. rewrite listening_snoc. split; [|intros X; injection X as ->; auto]. intros [X| ->]; [apply O in X; discriminate|reflexivity].
      * assert (i = i') as <- by (destruct (Nat.eq_dec i i'); auto; destruct B as (_ & B & _); apply B in N; auto; destruct N).
        destruct B as (B & _); congruence.
      * assert (i = i') as <- by (destruct (Nat.eq_dec i i'); auto; destruct B as (_ & B & _); apply B in N; auto; destruct N).
        destruct B as (B & _); congruence.
      * destruct B as (_ & _ & B). rewrite Forall_nth in B. apply B in N. destruct N.
      * destruct B as (_ & _ & B). rewrite Forall_nth in B. apply B in N. destruct N.
    + destruct T as [[R1 R2] O|i' p B F O|i' l' B F O|i' l' B F O|j l' B F O|j l' B F O].
      * rewrite Forall_nth in R1. apply R1 in N. destruct N.
      * assert (i = i') as <- by (destruct (Nat.eq_dec i i'); auto; destruct B as (_ & B & _); apply B in N; auto; destruct N).
        destruct B as (B & _); congruence.
      * assert (i = i') as <- by (destruct (Nat.eq_dec i i'); auto; destruct B as (_ & B & _); apply B in N; auto; destruct N).
        assert (l' = l) as -> by (destruct B as (B & _); congruence).
        do 2 eexists. split; [reflexivity|]. eapply (TServe _ i l); [eapply run_moves; eauto|reflexivity|exact O].
      * assert (i = i') as <- by (destruct (Nat.eq_dec i i'); auto; destruct B as (_ & B & _); apply B in N; auto; destruct N).
        destruct B as (B & _); congruence.
      * destruct B as (_ & _ & B). rewrite Forall_nth in B. apply B in N. destruct N.
      * destruct B as (_ & _ & B). rewrite Forall_nth in B. apply B in N. destruct N.
    + destruct T as [[R1 R2] O|i' p B F O|i' l' B F O|i' l' B F O|j l' B F O|j l' B F O].
      * rewrite Forall_nth in R1. apply R1 in N. destruct N.
      * assert (i = i') as <- by (destruct (Nat.eq_dec i i'); auto; destruct B as (_ & B & _); apply B in N; auto; destruct N).
        destruct B as (B & _); congruence.
      * assert (i = i') as <- by (destruct (Nat.eq_dec i i'); auto; destruct B as (_ & B & _); apply B in N; auto; destruct N).
        destruct B as (B & _); congruence.
      * assert (i = i') as <- by (destruct (Nat.eq_dec i i'); auto; destruct B as (_ & B & _); apply B in N; auto; destruct N).
        rewrite F. do 2 eexists. split; [reflexivity|]. apply TRest; [split; cbn|]; cbn.
        -- eapply busy_done; eauto. exact Logic.I.
        -- apply B.
        -- rewrite F. exact O.
      * destruct B as (_ & _ & B). rewrite Forall_nth in B. apply B in N. destruct N.
      * destruct B as (_ & _ & B). rewrite Forall_nth in B. apply B in N. destruct N.
    + destruct (listening (lf_links s) l).
      * do 2 eexists. split; [reflexivity|exact T].
      * do 2 eexists. split; [reflexivity|]. eapply turn_returns; eauto; exact Logic.I.
    + do 2 eexists. split; [reflexivity|exact T].
    + do 2 eexists. split; [reflexivity|exact T].
  - destruct (nth_error (lf_runs s) i) as [[port|l| |l|r]|] eqn:N; try (do 2 eexists; split; [reflexivity|exact T]).
    destruct T as [[R1 R2] O|i' p B F O|i' l B F O|i' l B F O|j l B F O|j l B F O].
      * rewrite Forall_nth in R1. apply R1 in N. destruct N.
      * assert (i = i') as <- by (destruct (Nat.eq_dec i i'); auto; destruct B as (_ & B & _); apply B in N; auto; destruct N).
        do 2 eexists. split; [reflexivity|]. apply TRest; [split; cbn|]; cbn.
        -- eapply busy_done; eauto. exact Logic.I.
        -- apply B.
        -- rewrite F. exact O.
      * assert (i = i') as <- by (destruct (Nat.eq_dec i i'); auto; destruct B as (_ & B & _); apply B in N; auto; destruct N).
        destruct B as (B & _); congruence.
      * assert (i = i') as <- by (destruct (Nat.eq_dec i i'); auto; destruct B as (_ & B & _); apply B in N; auto; destruct N).
        destruct B as (B & _); congruence.
      * destruct B as (_ & _ & B). rewrite Forall_nth in B. apply B in N. destruct N.
      * destruct B as (_ & _ & B). rewrite Forall_nth in B. apply B in N. destruct N.
  - destruct (nth_error (lf_runs s) i) as [[port|l| |l|r]|] eqn:N; try (do 2 eexists; split; [reflexivity|exact T]).
    do 2 eexists. split; [reflexivity|]. eapply turn_returns; eauto; exact Logic.I.
  - specialize (H Logic.I). pose proof (rest_not (o := LStop) Logic.I T H) as O. destruct (lf_field s) as [l|] eqn:N.
    + do 2 eexists. split; [reflexivity|]. eapply TClose; [eapply stop_new; eauto| |]; cbn; eauto.
    + do 2 eexists. split; [reflexivity|]. apply TRest; [split; cbn|cbn; exact O]; [apply H|apply rest_snoc; [apply H|reflexivity]].
  - destruct (nth_error (lf_stops s) j) as [[]|] eqn:N; try (do 2 eexists; split; [reflexivity|exact T]).
    + destruct T as [[R1 R2] O|i' p B F O|i' l B F O|i' l B F O|j' l B F O|j' l B F O].
      * rewrite Forall_nth in R2. apply R2 in N. discriminate.
      * destruct B as (_ & _ & B). rewrite Forall_nth in B. apply B in N. discriminate.
      * destruct B as (_ & _ & B). rewrite Forall_nth in B. apply B in N. discriminate.
      * destruct B as (_ & _ & B). rewrite Forall_nth in B. apply B in N. discriminate.
      * assert (j = j') as <- by (destruct (Nat.eq_dec j j'); auto; destruct B as (_ & B & _); apply B in N; auto; discriminate).
        rewrite F. do 2 eexists. split; [reflexivity|]. eapply (TClear _ j l); [eapply stop_moves; eauto|reflexivity|].
        intros k. cbn. rewrite shut_listening. split; [|discriminate]. intros [X Y]. apply O in X. congruence.
      * assert (j = j') as <- by (destruct (Nat.eq_dec j j'); auto; destruct B as (_ & B & _); apply B in N; auto; discriminate).
        destruct B as (B & _); congruence.
    + destruct T as [[R1 R2] O|i' p B F O|i' l B F O|i' l B F O|j' l B F O|j' l B F O].
      * rewrite Forall_nth in R2. apply R2 in N. discriminate.
      * destruct B as (_ & _ & B). rewrite Forall_nth in B. apply B in N. discriminate.
      * destruct B as (_ & _ & B). rewrite Forall_nth in B. apply B in N. discriminate.
      * destruct B as (_ & _ & B). rewrite Forall_nth in B. apply B in N. discriminate.
      * assert (j = j') as <- by (destruct (Nat.eq_dec j j'); auto; destruct B as (_ & B & _); apply B in N; auto; discriminate).
        destruct B as (B & _); congruence.
      * assert (j = j') as <- by (destruct (Nat.eq_dec j j'); auto; destruct B as (_ & B & _); apply B in N; auto; discriminate).
        do 2 eexists. split; [reflexivity|]. apply TRest; [split; cbn|]; cbn; [apply B|eapply stop_done; eauto|exact O].
Qed.

Lemma in_turn_prefix os1 os2 : in_turn (os1 ++ os2) -> in_turn os1.
Proof. intros H pre o post s evs E. apply (H pre o (post ++ os2)). rewrite E, <- app_assoc. reflexivity. Qed.
Lemma turn_new : turn_inv life_new.
Proof. apply TRest; [split; constructor|]. intros l. unfold listening. cbn. destruct l; split; discriminate. Qed.

Lemma turn_run os : in_turn os -> exists s evs, lrun life_new os = Ok (s, evs) /\ turn_inv s.
Proof.
  induction os as [|o t IH] using rev_ind; intros H.
  - exists life_new, []. split; [reflexivity|apply turn_new].
  - destruct (IH (in_turn_prefix _ _ H)) as (s & evs & R & T).
    assert (B : begins o -> rests s). { intros B. eapply (H t o []); eauto. }
    destruct (turn_step s o T B) as (s' & e & L & T').
    rewrite lrun_app, R. cbn. rewrite L. cbn. do 2 eexists. split; [reflexivity|exact T'].
Qed.

Lemma turn_one os s evs l : in_turn os -> lrun life_new os = Ok (s, evs) -> rests s -> left_open evs l <-> owner evs = Some l.
Proof.
  intros H R Q. destruct (turn_run os H) as (s' & evs' & R' & T). rewrite R in R'. injection R' as <- <-.
  pose proof (fits_start _ _ _ R) as F. rewrite <- (f_open _ _ F), <- (f_field _ _ F).
  apply (rest_not (o := LStop) Logic.I T Q).
Qed.
Lemma turn_stop os s evs : in_turn os -> lrun life_new os = Ok (s, evs) -> rests s -> let j := length (lf_stops s) in
  exists s' e, lrun s [LStop; LEnd j; LEnd j] = Ok (s', e) /\ In (VStopped j) e /\ rests s' /\
    (forall l, ~ left_open (evs ++ e) l) /\
    forall i l, nth_error (lf_runs s) i = Some (RAccept l) -> exists s2, lstep s' (LStep i) = Ok (s2, [VBack i BServe]).
Proof.
  intros H R Q j. destruct (turn_run os H) as (s0 & evs0 & R0 & T). rewrite R in R0. injection R0 as <- <-.
  pose proof (rest_not (o := LStop) Logic.I T Q) as O.
  assert (G : exists s' e, lrun s [LStop; LEnd j; LEnd j] = Ok (s', e) /\ In (VStopped j) e /\ lf_runs s' = lf_runs s /\ Forall (eq SBack) (lf_stops s') /\
            forall l, listening (lf_links s') l = false).
  { assert (E0 : forall x, nth_error (lf_stops s ++ [x]) j = Some x) by (intros x; unfold j; rewrite nth_error_app2, Nat.sub_diag; auto).
    assert (E1 : forall x y, set_at (lf_stops s ++ [x]) j y = lf_stops s ++ [y]).
    { intros x y. unfold j. generalize (lf_stops s) as l. induction l; cbn; congruence. }
    unfold lrun, lstep. destruct (lf_field s) as [l|] eqn:N.
    - repeat (cbn [bind lf_stops lf_field lf_links lf_runs]; rewrite ?E0, ?E1).
      do 2 eexists. split; [reflexivity|]. split; [right; right; left; reflexivity|]. cbn. split; [reflexivity|].
      split; [apply rest_snoc; [apply Q|reflexivity]|]. intros k. destruct (listening (shut (lf_links s) l) k) eqn:E; auto.
      apply shut_listening in E as [E X]. apply O in E. congruence.
    - repeat (cbn [bind lf_stops lf_field lf_links lf_runs]; rewrite ?E0, ?E1).
      do 2 eexists. split; [reflexivity|]. split; [left; reflexivity|]. cbn. split; [reflexivity|].
      split; [apply rest_snoc; [apply Q|reflexivity]|]. intros k. destruct (listening (lf_links s) k) eqn:E; auto.
      apply O in E. congruence. }
  destruct G as (s' & e & L & V & E & B & G). exists s', e. split; [exact L|]. split; [exact V|].
  split; [split; [rewrite E; apply Q|exact B]|]. split.
  - intros l X. apply (f_open _ _ (fits_run _ _ _ _ _ (fits_start _ _ _ R) L)) in X. rewrite G in X. discriminate.
  - intros i l X. unfold lstep. rewrite E, X, G. eauto.
Qed.
Lemma turn_again os s evs p : in_turn os -> lrun life_new os = Ok (s, evs) -> rests s -> owner evs = None ->
  let i := length (lf_runs s) in exists s' l, lrun s [LRun p; LStep i; LStep i; LStep i] = Ok (s', [VListening i l p; VAssigned l; VServing i l]).
Proof.
  intros H R Q W i. destruct (turn_run os H) as (s0 & evs0 & R0 & T). rewrite R in R0. injection R0 as <- <-.
  pose proof (rest_not (o := LStop) Logic.I T Q) as O.
  pose proof (f_field _ _ (fits_start _ _ _ R)) as F. rewrite W in F. rewrite F in O.
  assert (E0 : forall x, nth_error (lf_runs s ++ [x]) i = Some x) by (intros x; unfold i; rewrite nth_error_app2, Nat.sub_diag; auto).
  assert (E1 : forall x y, set_at (lf_runs s ++ [x]) i y = lf_runs s ++ [y]).
  { intros x y. unfold i. generalize (lf_runs s) as l. induction l; cbn; congruence. }
  unfold lrun, lstep, at_run. rewrite F.
  repeat (cbn [bind lf_stops lf_field lf_links lf_runs]; rewrite ?E0, ?E1, ?(only_none s O)).
  do 2 eexists. reflexivity.
Qed.
