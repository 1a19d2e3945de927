(** Properties of Server.Run and Server.Stop (server.go:62-87). *)
From Verif Require Import Base Life SpecLife ProofLife ProofLife2 ProofLife3 DemoLife.

(** C158. Once Stop has returned and every Run has too, no listener is open: refuted, after two Runs at the same time. *)
Theorem C158_orphan_refuted : exists os s evs l, lrun life_new os = Ok (s, evs) /\ Forall (fun r => exists b, r = RBack b) (lf_runs s) /\
  Forall (eq SBack) (lf_stops s) /\ last evs VCleared = VBack 1 BServe /\ In (VStopped 0) evs /\ left_open evs l.
Proof. exact orphan_refuted. Qed.
Print Assumptions C158_orphan_refuted.
(** No call panics: refuted, by two calls of Stop and by a call of Stop during one of Run. *)
Theorem C158_crash_refuted : exists os1 os2, (forall p, In (LRun p) os1 -> p = 808) /\ In LStop os2 /\
  lrun life_new os1 = Panic /\ lrun life_new os2 = Panic.
Proof. exists two_stops, stop_early. split; [cbn; intros; intuition congruence|]. split; [cbn; tauto|exact crash_refuted]. Qed.
Print Assumptions C158_crash_refuted.
(** Once Stop has returned, no Run called before it begins to serve: refuted. *)
Theorem C158_late_refuted : exists os1 os2 s1 e1 s2 e2, lrun life_new os1 = Ok (s1, e1) /\ In (VStopped 0) e1 /\
  lrun s1 os2 = Ok (s2, e2) /\ Forall (fun o => ~ begins o) os2 /\ exists i l, In (VServing i l) e2.
Proof. exact late_refuted. Qed.
Print Assumptions C158_late_refuted.
(** Run is refused only while another Run is in progress: refuted even when the calls come in turn, after the listener has failed. *)
Theorem C158_dead_refuted : exists os s evs s' i, in_turn os /\ lrun life_new os = Ok (s, evs) /\
  Forall (fun r => exists b, r = RBack b) (lf_runs s) /\ lstep s (LRun 808) = Ok (s', [VBack i BRefused]).
Proof. exact dead_refuted. Qed.
Print Assumptions C158_dead_refuted.

(** C159. When no call begins while a Stop is under way or a Run has not reached Serve, no call panics. *)
Theorem C159_safe os : in_turn os -> exists s evs, lrun life_new os = Ok (s, evs).
Proof. intros H. destruct (turn_run os H) as (s & evs & R & _). exists s, evs. exact R. Qed.
Print Assumptions C159_safe.
(** Then, when no call is at work, the open listener is the one in the field, *)
Theorem C159_one os s evs l : in_turn os -> lrun life_new os = Ok (s, evs) -> rests s -> left_open evs l <-> owner evs = Some l.
Proof. exact (turn_one os s evs l). Qed.
Print Assumptions C159_one.
(** Stop leaves no listener open and every Run returns at its next step, *)
Theorem C159_stop os s evs : in_turn os -> lrun life_new os = Ok (s, evs) -> rests s -> let j := length (lf_stops s) in
  exists s' e, lrun s [LStop; LEnd j; LEnd j] = Ok (s', e) /\ In (VStopped j) e /\ rests s' /\
    (forall l, ~ left_open (evs ++ e) l) /\
    forall i l, nth_error (lf_runs s) i = Some (RAccept l) -> exists s2, lstep s' (LStep i) = Ok (s2, [VBack i BServe]).
Proof. exact (turn_stop os s evs). Qed.
Print Assumptions C159_stop.
(** and a Run that finds the field empty serves a listener of its own, whatever port it is given. *)
Theorem C159_again os s evs p : in_turn os -> lrun life_new os = Ok (s, evs) -> rests s -> owner evs = None ->
  let i := length (lf_runs s) in exists s' l, lrun s [LRun p; LStep i; LStep i; LStep i] = Ok (s', [VListening i l p; VAssigned l; VServing i l]).
Proof. exact (turn_again os s evs p). Qed.
Print Assumptions C159_again.
Example C159_case : in_turn twice /\ exists s, lrun life_new twice =
    Ok (s, [VListening 0 0 808; VAssigned 0; VServing 0 0; VClosed 0; VCleared; VStopped 0; VBack 0 BServe;
            VListening 1 1 808; VAssigned 1; VServing 1 1]) /\ rests s.
Proof. split; [apply in_turn_b_ok; reflexivity|]. eexists. split; [reflexivity|]. apply rests_b_ok. reflexivity. Qed.

(** C160. In any history Run is refused exactly if the last write of the field was an assignment, *)
Theorem C160_refused os s evs port s' e : lrun life_new os = Ok (s, evs) -> lstep s (LRun port) = Ok (s', e) ->
  (e = [VBack (length (lf_runs s)) BRefused] <-> owner evs <> None).
Proof. exact (refused_iff os s evs port s' e). Qed.
Print Assumptions C160_refused.
(** a step panics exactly if it reads the field a second time and the last write was a Stop's, *)
Theorem C160_panics os s evs o : lrun life_new os = Ok (s, evs) ->
  (lstep s o = Panic <-> reads_field s o /\ owner evs = None).
Proof. exact (panics_iff os s evs o). Qed.
Print Assumptions C160_panics.
(** and a listener that is open, not in the field and not about to be put there stays open for ever: no call
    serves it or closes it, and no call can listen on its port. *)
Theorem C160_orphan os s evs l i p : lrun life_new os = Ok (s, evs) -> In (VListening i l p) evs -> left_open evs l -> owner evs <> Some l ->
  (forall k, nth_error (lf_runs s) k <> Some (RAssign l)) ->
  forall os' s' evs', lrun s os' = Ok (s', evs') ->
  left_open (evs ++ evs') l /\ (forall k, ~ In (VServing k l) evs') /\ (p <> 0 -> forall k m, ~ In (VListening k m p) evs').
Proof. exact (orphan_stays os s evs l i p). Qed.
Print Assumptions C160_orphan.
(** A call of Run is refused, fails to listen, or listens, serves and returns: each at most once and in this order. *)
Theorem C160_course os s evs i : lrun life_new os = Ok (s, evs) -> run_course i (filter (of_run i) evs).
Proof. exact (run_courses os s evs i). Qed.
Print Assumptions C160_course.
Example C160_case : exists s evs, lrun life_new two_runs = Ok (s, evs) /\ In (VListening 0 0 808) evs /\ left_open evs 0 /\ owner evs = None /\
  (forall k, nth_error (lf_runs s) k <> Some (RAssign 0)) /\ exists s', lrun s [LRun 808; LStep 2] = Ok (s', [VBack 2 BListen]).
Proof. exact two_runs_case. Qed.
