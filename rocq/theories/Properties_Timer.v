(** The countdown timer: C35, C36, C78-C80. *)
From Coq Require Import Sorted Permutation.
From Verif Require Import Base LibBase Timer SpecTimer ProofTimer2 ProofTimer3 ProofTimer4.

(** C35. For every sequence of calls and ticks with clock readings and timeouts
    below 2^62, no index is ever out of range and each tick fires exactly the
    keys whose deadline has come, once each, in the order of the deadlines. *)
Theorem C35_timer_exact s0 ops : ordinary s0 -> Forall ordinary_op ops ->
  exists t out, urun (timer_new s0) ops = Ok (t, out) /\ conforms Z.add (Tspec s0 none_due) ops out.
Proof. exact (timer_exact s0 ops). Qed.
Print Assumptions C35_timer_exact.
Example C35_case : ordinary 60 /\ Forall ordinary_op demo_ops /\ exists t, urun (timer_new 60) demo_ops = Ok (t, [[]; []; []; []; []; [4]; []; []; [2]; [1]]).
Proof. split; [cbv; split; congruence|]. split; [repeat constructor; cbv; congruence|]. eexists. vm_compute. reflexivity. Qed.

(** C36. A removed key is silent until it is updated again; an updated key
    does not fire before its timeout has passed (calls that do not overlap) ... *)
Theorem C36_removed_partial s0 a k b now t out : ordinary s0 -> Forall ordinary_op ((a ++ URemove k :: b) ++ [UTick now]) ->
  urun (timer_new s0) ((a ++ URemove k :: b) ++ [UTick now]) = Ok (t, out) -> (forall o, In o b -> ~ updates_key k o) -> ~ In k (last out []).
Proof. exact (removed_silent s0 a k b now t out). Qed.
Print Assumptions C36_removed_partial.
Theorem C36_refreshed_partial s0 a k u b now t out : ordinary s0 -> Forall ordinary_op ((a ++ UUpdate k u :: b) ++ [UTick now]) ->
  urun (timer_new s0) ((a ++ UUpdate k u :: b) ++ [UTick now]) = Ok (t, out) -> (forall o, In o b -> ~ updates_key k o) -> In k (last out []) ->
  u + timeout_after s0 a <= now.
Proof. exact (refreshed_waits s0 a k u b now t out). Qed.
Print Assumptions C36_refreshed_partial.
(** ... and the same holds under any interleaving in which Updates of one key
    do not overlap; Remove and ticks may come in between. *)
Theorem C36_apart_partial s0 ops : apart (Cspec s0 [] none_due) ops ->
  exists c, trun (tinit s0) ops = Ok c /\ ticks_ok (Cspec s0 [] none_due) ops (rev (tc_fired c)).
Proof. exact (apart_exact s0 ops). Qed.
Print Assumptions C36_apart_partial.
Example C36_case : apart (Cspec 60 [] none_due) [TStart 1 7 0; TStart 2 8 5; TDel 2; TRemove 7; TDel 1; TIns 2; TTick 65; TIns 1; TTick 70] /\
  exists c, trun (tinit 60) [TStart 1 7 0; TStart 2 8 5; TDel 2; TRemove 7; TDel 1; TIns 2; TTick 65; TIns 1; TTick 70] = Ok c /\ tc_fired c = [(70, [7]); (65, [8])].
Proof.
  split; [cbn; repeat split; repeat constructor; cbn; congruence|]. eexists. split; [vm_compute; reflexivity|]. reflexivity.
Qed.
(** It does not hold when Updates of one key overlap: the key updated at time 50
    with a timeout of 60 fires at 60, even after Remove. *)
Theorem C36_overlap_refuted : exists c1 c2, trun (tinit 60) (overlap ++ [TTick 60]) = Ok c1 /\ tc_fired c1 = [(60, [7])] /\ tc_calls c1 = [] /\
  trun (tinit 60) (overlap ++ [TRemove 7; TTick 60]) = Ok c2 /\ tc_fired c2 = [(60, [7])] /\ tc_calls c2 = [].
Proof. exact early. Qed.
Print Assumptions C36_overlap_refuted.

(** C78. Under every interleaving the timer does not crash, a key fires only if
    the deadline of one of its Updates has come, and at most once per Update. *)
Theorem C78_any_interleaving s0 ops : exists c, trun (tinit s0) ops = Ok c /\
  (forall now ks k, In (now, ks) (tc_fired c) -> In k ks -> exists tok u s, In (TStart tok k u) ops /\ In s (timeouts s0 ops) /\ wrapped u s <= now) /\
  (forall k, (firings k (tc_fired c) <= updates k ops)%nat).
Proof. exact (any_interleaving s0 ops). Qed.
Print Assumptions C78_any_interleaving.
Example C78_case : exists c, trun (tinit 60) (overlap ++ [TTick 60; TTick 120]) = Ok c /\ firings 7 (tc_fired c) = 2%nat /\ updates 7 overlap = 2%nat.
Proof. eexists. split; [vm_compute; reflexivity|]. split; reflexivity. Qed.

(** C79. With any 64-bit clock and timeout: the deadline wraps.  A timeout of
    2^63-1 seconds therefore expires at once. *)
Theorem C79_wraps s0 ops : exists t out, urun (timer_new s0) ops = Ok (t, out) /\ conforms wrapped (Tspec s0 none_due) ops out.
Proof. exact (timer_exact_wrapped s0 ops). Qed.
Print Assumptions C79_wraps.
Example C79_case : exists t, urun (timer_new (2 ^ 63 - 1)) [UUpdate 1 1700000000; UTick 1700000001] = Ok (t, [[]; [1]]).
Proof. eexists. vm_compute. reflexivity. Qed.

(** C80. The priority queue: Push, Remove and Update keep the order and the
    recorded positions, and change nothing else. *)
Theorem C80_push st q p : queue_ok st q -> (p < length st)%nat -> ~ In p q ->
  queue_ok (fst (heap_push (st, q) p)) (snd (heap_push (st, q) p)) /\ Permutation (p :: q) (snd (heap_push (st, q) p)).
Proof. exact (queue_push st q p). Qed.
Print Assumptions C80_push.
Theorem C80_remove st q p : queue_ok st q -> In p q -> exists st' q', q_remove (st, q) p = Ok (st', q') /\ queue_ok st' q' /\ Permutation q (p :: q') /\
  (forall a, e_key (nth a st' (Elem 0 0 0)) = e_key (nth a st (Elem 0 0 0)) /\ e_expire (nth a st' (Elem 0 0 0)) = e_expire (nth a st (Elem 0 0 0))).
Proof. exact (queue_remove st q p). Qed.
Print Assumptions C80_remove.
Theorem C80_update st q p x : queue_ok st q -> In p q -> exists st' q', q_update (st, q) p x = Ok (st', q') /\ queue_ok st' q' /\ Permutation q q' /\
  (forall a, e_key (nth a st' (Elem 0 0 0)) = e_key (nth a st (Elem 0 0 0))) /\
  (forall a, e_expire (nth a st' (Elem 0 0 0)) = if (a =? p)%nat then x else e_expire (nth a st (Elem 0 0 0))).
Proof. exact (queue_update st q p x). Qed.
Print Assumptions C80_update.
Theorem C80_least st q : queue_ok st q -> forall i, (i < length q)%nat ->
  e_expire (nth (nth 0 q O) st (Elem 0 0 0)) <= e_expire (nth (nth i q O) st (Elem 0 0 0)).
Proof. exact (queue_least st q). Qed.
Print Assumptions C80_least.
Example C80_case : queue_ok [Elem 1 0 5; Elem 2 2 9; Elem 3 1 7] [0; 2; 1]%nat /\
  q_update ([Elem 1 0 5; Elem 2 2 9; Elem 3 1 7], [0; 2; 1]%nat) 0 8 = Ok ([Elem 1 1 8; Elem 2 2 9; Elem 3 0 7], [2; 0; 1]%nat).
Proof.
  split; [|vm_compute; reflexivity]. split; intros [|[|[|i]]] I; cbn in *; try lia; split; lia.
Qed.
