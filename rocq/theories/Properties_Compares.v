(** Comparisons of deadlines made by the timer: C204. *)
From Verif Require Import Base LibBase Timer Compares SpecCompares ProofTimer4 ProofCompares ProofCompares2 ProofCompares3 ProofCompares4.

(** C204. With d keys an Update makes at most 3 log2 d comparisons, a Remove 2 log2 d, and a tick 2 log2 d for every key that fires; over any
    history the comparisons are at most 3 log2 d for every Update, however many Removes and ticks there are. *)
Theorem C204_run s0 ks ops : (forall k now, In (UUpdate k now) ops -> In k ks) -> exists t out,
  urun_n (timer_new s0) ops = Ok (t, out) /\ urun (timer_new s0) ops = Ok (t, map snd out) /\
  Forall2 (allowed (Z.log2 (zlen ks))) ops out /\ total out <= 3 * Z.log2 (zlen ks) * updates ops.
Proof. exact (run_new s0 ks ops). Qed.
Print Assumptions C204_run.
(** An Update of a new key that expires before all others makes log2 (n + 1), with n entries there; one that expires after all others makes one. *)
Theorem C204_first s0 ops t out k now : urun (timer_new s0) ops = Ok (t, out) -> map_get (tm_map t) k = None ->
  (forall p, In p (tm_q t) -> deadline t now < e_expire (nth p (tm_store t) (Elem 0 0 0))) ->
  exists t', timer_update_n t k now = Ok (Z.log2 (zlen (tm_q t) + 1), t').
Proof. exact (update_first s0 ops t out k now). Qed.
Print Assumptions C204_first.
Theorem C204_last s0 ops t out k now : urun (timer_new s0) ops = Ok (t, out) -> map_get (tm_map t) k = None ->
  (forall p, In p (tm_q t) -> e_expire (nth p (tm_store t) (Elem 0 0 0)) <= deadline t now) ->
  exists t', timer_update_n t k now = Ok (if (zlen (tm_q t) =? 0) then 0 else 1, t').
Proof. exact (update_last s0 ops t out k now). Qed.
Print Assumptions C204_last.
(** A tick at which all n keys fire, all with the same deadline, makes 2 n - 5, or none if n is at most 2. *)
Theorem C204_tie s0 ops t out now x : urun (timer_new s0) ops = Ok (t, out) -> x <= now ->
  (forall p, In p (tm_q t) -> e_expire (nth p (tm_store t) (Elem 0 0 0)) = x) ->
  exists t' keys, timer_check_n t now = Ok (if zlen (tm_q t) <? 3 then 0 else 2 * zlen (tm_q t) - 5, t', keys) /\ tm_q t' = [].
Proof. exact (check_tie s0 ops t out now x). Qed.
Print Assumptions C204_tie.
(** In any state at all, also one left by Updates that overlapped, an Update makes at most 3 log2 (n + 1), with n entries there. *)
Theorem C204_any t k now t' : timer_update t k now = Ok t' ->
  exists c, timer_update_n t k now = Ok (c, t') /\ 0 <= c <= 3 * Z.log2 (zlen (tm_q t) + 1).
Proof. exact (update_any t k now t'). Qed.
Print Assumptions C204_any.
(** So do a Remove and a tick, with their own bounds; a tick takes as many entries out as keys fire. *)
Theorem C204_any_remove t k t' : timer_remove t k = Ok t' ->
  exists c, timer_remove_n t k = Ok (c, t') /\ 0 <= c <= 2 * Z.log2 (zlen (tm_q t)).
Proof. exact (remove_any t k t'). Qed.
Print Assumptions C204_any_remove.
Theorem C204_any_tick t now t' keys : timer_check t now = Ok (t', keys) ->
  exists c, timer_check_n t now = Ok (c, t', keys) /\ 0 <= c <= 2 * Z.log2 (zlen (tm_q t)) * zlen keys /\ zlen (tm_q t) = zlen (tm_q t') + zlen keys.
Proof. exact (check_any t now t' keys). Qed.
Print Assumptions C204_any_tick.
(** Without the counter these are Update, Remove and the tick. *)
Theorem C204_counter t k now : (do (_, t') <- timer_update_n t k now ; Ok t') = timer_update t k now /\
  (do (_, t') <- timer_remove_n t k ; Ok t') = timer_remove t k /\ (do (_, t', keys) <- timer_check_n t now ; Ok (t', keys)) = timer_check t now.
Proof. exact (conj (update_erase t k now) (conj (timer_remove_erase t k) (check_erase t now))). Qed.
Print Assumptions C204_counter.
(** Eight keys, each to expire before the ones already there: 13 comparisons; then calls and ticks of every kind *)
Example C204_case : let ks := [1; 2; 3; 4; 5; 6; 7; 8] in
  let ops := map (fun k => UUpdate k (100 - k)) ks ++ [URemove 8; UUpdate 1 50; USet 3; UTick 103; UTick 200] in
  (forall k now, In (UUpdate k now) ops -> In k ks) /\ updates ops = 9 /\
  (do (_, out) <- urun_n (timer_new 10) ops ; Ok out) =
    Ok [(0, []); (1, []); (1, []); (2, []); (2, []); (2, []); (2, []); (3, []); (4, []); (4, []); (0, []); (5, [1; 7]); (6, [6; 5; 4; 3; 2])].
Proof.
  split; [|split; vm_compute; reflexivity]. intros k now H. cbn [map app] in H. repeat (destruct H as [H|H]; [try discriminate H; injection H as <- _; cbn; tauto|]). destruct H.
Qed.
(** A new key that expires first, and one that expires last *)
Example C204_ends : exists t out, urun (timer_new 10) [UUpdate 1 100; UUpdate 2 103; UUpdate 3 101] = Ok (t, out) /\ map_get (tm_map t) 4 = None /\
  (forall p, In p (tm_q t) -> deadline t 90 < e_expire (nth p (tm_store t) (Elem 0 0 0))) /\
  (forall p, In p (tm_q t) -> e_expire (nth p (tm_store t) (Elem 0 0 0)) <= deadline t 103) /\
  (do (c, _) <- timer_update_n t 4 90 ; Ok c) = Ok 2 /\ (do (c, _) <- timer_update_n t 4 103 ; Ok c) = Ok 1.
Proof.
  eexists. eexists. split; [vm_compute; reflexivity|]. split; [reflexivity|].
  split; [|split; [|split; vm_compute; reflexivity]]; intros p H; cbn [tm_q In] in H; repeat (destruct H as [<-|H]; [vm_compute; congruence|]); destruct H.
Qed.
(** Five keys at once *)
Example C204_ties : exists t out, urun (timer_new 10) (map (fun k => UUpdate k 100) [1; 2; 3; 4; 5]) = Ok (t, out) /\ zlen (tm_q t) = 5 /\
  (forall p, In p (tm_q t) -> e_expire (nth p (tm_store t) (Elem 0 0 0)) = 110) /\
  (do (c, _, keys) <- timer_check_n t 110 ; Ok (c, keys)) = Ok (5, [1; 5; 4; 3; 2]).
Proof.
  eexists. eexists. split; [vm_compute; reflexivity|]. split; [reflexivity|]. split; [|vm_compute; reflexivity]. intros p H. cbn [tm_q In] in H. repeat (destruct H as [<-|H]; [reflexivity|]). destruct H.
Qed.
