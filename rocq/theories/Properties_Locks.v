(** Mutexes: C175-C177. *)
From Verif Require Import Base LibBase Timer Session Server Locks SpecLocks ProofLocks3 ProofLocks4 ProofLocks5 ProofLocks6 ProofLocks7 DemoLocks.

(** C175. What is between Lock and Unlock may be taken as one step.  However the statements of all goroutines are interleaved, none of
    them panics, ... *)
Theorem C175_never_fails sec ops : exists s evs, lock_runs sec ops s evs.
Proof. exact (never_fails sec ops). Qed.
Print Assumptions C175_never_fails.
(** ... and the critical sections, each executed at once and in the order in which the mutexes were taken, give the same answers and leave the same
    data behind every mutex nobody holds. *)
Theorem C175_atomic sec ops s evs : lock_runs sec ops s evs -> exists l d, executes (blank sec) l d /\ map fst l = tooks evs /\
  (forall i, exists rest, share i l = freed i evs ++ rest /\ (length rest <= 1)%nat /\ ((forall m, ~ holds s i m) -> rest = [])) /\
  (forall m, (forall i, ~ holds s i m) -> agree m (ls_data s) d).
Proof. exact (atomic sec ops s evs). Qed.
Print Assumptions C175_atomic.
(** An Update takes the clock first, then removes the old element and then enters the new one, with the deadline it computed
    in the beginning. *)
Theorem C175_update sec ops s evs i k x e1 e2 : lock_runs sec ops s evs -> (forall i k x, ~ In (LCall i (KSect (SIns k x))) ops) -> (forall i n, ~ In (LCall i (KSet n)) ops) ->
  evs = e1 ++ ETook i (SIns k x) :: e2 -> exists now a e, x = s64 (now + sec) /\ own i e1 = e ++ [EClock i k now x; ETook i (SDel k); EFree i (SDel k) a].
Proof. exact (update_order sec ops s evs i k x e1 e2). Qed.
Print Assumptions C175_update.
Example C175_case_update : exists e1 e2, snd after_day = e1 ++ ETook 1 (SIns 7 15) :: e2 /\ own 1 e1 = [ETook 1 (SReg 7); EFree 1 (SReg 7) ANone; EClock 1 7 5 15; ETook 1 (SDel 7); EFree 1 (SDel 7) ANone] /\ length e1 = 12%nat.
Proof. exact day_update. Qed.
Example C175_case : lock_runs 10 busy_day (fst after_day) (snd after_day) /\ length (tooks (snd after_day)) = 9%nat /\ length (freed 1 (snd after_day)) = 4%nat.
Proof. split; [exact day_runs|]. vm_compute. auto. Qed.

(** C176. No deadlock.  Between two takings of a mutex the first owner has left; ... *)
Theorem C176_exclusive sec ops s evs : lock_runs sec ops s evs -> exclusive evs.
Proof. exact (mutual sec ops s evs). Qed.
Print Assumptions C176_exclusive.
(** ... whoever holds a mutex holds no other one and waits for none; ... *)
Theorem C176_one_mutex sec ops s evs i m : lock_runs sec ops s evs -> holds s i m -> (forall m', holds s i m' -> m' = m) /\ exists x p nx, ls_at s i = Inside x p nx /\ guard x = m.
Proof. exact (one_mutex sec ops s evs i m). Qed.
Print Assumptions C176_one_mutex.
(** ... a goroutine in the middle of a call can go on, or waits for a mutex whose owner is another goroutine that can go on; ... *)
Theorem C176_progress sec ops s evs i : lock_runs sec ops s evs -> ls_at s i <> Idle ->
  can_move s i \/ exists x nx j, ls_at s i = AtLock x nx /\ holds s j (guard x) /\ j <> i /\ can_move s j.
Proof. exact (progress sec ops s evs i). Qed.
Print Assumptions C176_progress.
(** ... a mutex is held for at most four statements per entry of its data and four more; ... *)
Theorem C176_released sec ops s evs i m now : lock_runs sec ops s evs -> holds s i m ->
  exists n s' es, (n <= 4 * amount (ls_data s) m + 4)%nat /\ lrun s (alone_for i now n) = Ok (s', es) /\ (forall j, ~ holds s' j m) /\ (forall j m', m' <> m -> (holds s' j m' <-> holds s j m')).
Proof. exact (released sec ops s evs i m now). Qed.
Print Assumptions C176_released.
(** ... and from every state all calls in progress can be completed. *)
Theorem C176_drained sec ops s evs : lock_runs sec ops s evs -> exists ops' s' es, only_moves ops' /\ lrun s ops' = Ok (s', es) /\ (forall i, ls_at s' i = Idle) /\ (forall i m, ~ holds s' i m).
Proof. exact (drained sec ops s evs). Qed.
Print Assumptions C176_drained.
Example C176_case : lock_runs 10 busy_day (fst after_day) (snd after_day) /\ map (ls_at (fst after_day)) [0; 1; 2; 3]%nat =
  [Inside (STick 15) (PTopKey 15 1 []) None; Idle; AtLock (SDel 8) None; Inside (STake 7 5) (PDone (AReq (Some (Request 33028 5 1)))) None] /\
  map (ls_held (fst after_day)) [Mserver; Mtimer; Msession 7] = [None; Some 0%nat; Some 3%nat].
Proof. exact (conj day_runs day_end). Qed.

(** C177. Whoever changes or depends on the data behind a mutex holds it, ... *)
Theorem C177_guarded sec ops s evs i m : lock_runs sec ops s evs -> uses s i m -> holds s i m.
Proof. exact (uses_holds sec ops s evs i m). Qed.
Print Assumptions C177_guarded.
(** ... so that never two goroutines are about to use the same data. *)
Theorem C177_no_race sec ops s evs i j m : lock_runs sec ops s evs -> uses s i m -> uses s j m -> i = j.
Proof. exact (no_race sec ops s evs i j m). Qed.
Print Assumptions C177_no_race.
Example C177_case : lock_runs 10 busy_day (fst after_day) (snd after_day) /\ uses (fst after_day) 0 Mtimer /\ ls_at (fst after_day) 2 = AtLock (SDel 8) None.
Proof. split; [exact day_runs|]. split; [right; exact day_uses|]. vm_compute. reflexivity. Qed.
