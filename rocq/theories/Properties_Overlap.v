(** Properties of uploads received on several connections at once (session_handler.go:63-112, multipart.go). *)
From Verif Require Import Base LibBase Multipart SpecMulti Overlap SpecOverlap ProofOverlap ProofOverlap2 ProofOverlap3.

(** C102. A connection that is alone handles its packets one after the other, each as one call of Write, IsFull and Merge. *)
Theorem C102_alone ps f : Forall packet_ok ps -> fs_ok f ->
  exists k f' os, in_turn f ps f' os /\ forall k', (k <= k')%nat -> steps k' f (fresh ps) = (f', Thread [] TIdle os).
Proof. exact (alone ps f). Qed.
Print Assumptions C102_alone.
(** What [in_turn] allows is one result. *)
Theorem C102_one_result f ps f1 os1 f2 os2 : in_turn f ps f1 os1 -> in_turn f ps f2 os2 -> f1 = f2 /\ os1 = os2.
Proof. exact (fun A => turn_unique f ps f1 os1 A f2 os2). Qed.
Print Assumptions C102_one_result.
(** Packets of all connections, one after the other in any order: this is what one of the schedules does. *)
Theorem C102_serial_schedule pss order ps f f' os : Forall (Forall packet_ok) pss -> fs_ok f -> served pss order ps -> in_turn f ps f' os ->
  exists sched ts, interleave sched f (map fresh pss) = (f', ts) /\ length ts = length pss /\
    forall i t, nth_error ts i = Some t -> th_at t = TIdle /\ th_out t = picked i order os.
Proof. exact (coarse_fresh pss order ps f f' os). Qed.
Print Assumptions C102_serial_schedule.
(** An upload of two packets is handed over with the second one. *)
Example C102_case : Forall packet_ok [torn_p1; torn_p2] /\ fs_ok root_fs /\
  snd (steps 30 root_fs (fresh [torn_p1; torn_p2])) = Thread [] TIdle [OKept; OWhole [1; 2; 3; 4]] /\
  served [[torn_p2]; [torn_p1]] [1%nat; 0%nat] [torn_p1; torn_p2] /\
  picked 0 [1%nat; 0%nat] [OKept; OWhole [1; 2; 3; 4]] = [OWhole [1; 2; 3; 4]].
Proof.
  split; [apply Forall_cons; [exact (proj1 torn_ok)|]; apply Forall_cons; [exact (proj2 torn_ok)|]; apply Forall_nil|].
  split; [exact root_ok|]. split; [vm_compute; reflexivity|]. split; [|reflexivity].
  apply (ServedNext [[torn_p2]] torn_p1 [] []), (ServedNext [] torn_p2 [] [[]]), ServedEnd.
Qed.

(** C103. Connections with different uploads do not disturb each other: every goroutine is where it
    would be after as many steps alone, whatever the schedule. *)
Theorem C103_isolated pss f sched i ps : Forall (Forall packet_ok) pss -> apart pss -> nth_error pss i = Some ps ->
  nth_error (snd (interleave sched f (map fresh pss))) i = Some (snd (steps (moves i sched) f (fresh ps))).
Proof. exact (isolated pss f sched i ps). Qed.
Print Assumptions C103_isolated.
(** Once it has moved often enough, its packets have become what they would have become one after the other. *)
Theorem C103_overlapped pss f i ps : Forall (Forall packet_ok) pss -> apart pss -> fs_ok f -> nth_error pss i = Some ps ->
  exists k f' os, in_turn f ps f' os /\ forall sched, (k <= moves i sched)%nat ->
    nth_error (snd (interleave sched f (map fresh pss))) i = Some (Thread [] TIdle os).
Proof. exact (overlapped pss f i ps). Qed.
Print Assumptions C103_overlapped.
(** Two uploads of one terminal with different tags, the goroutines moving in turn. *)
Example C103_case : let q s d := Packet (Mpf 13800138000 2049 8 2) s d in
  let pss := [[torn_p1; torn_p2]; [q 1 [5]; q 2 [6; 7]]] in
  Forall (Forall packet_ok) pss /\ apart pss /\
  map th_out (snd (interleave (concat (repeat [0%nat; 1%nat] 30)) root_fs (map fresh pss))) = [[OKept; OWhole [1; 2; 3; 4]]; [OKept; OWhole [5; 6; 7]]].
Proof.
  cbv zeta. split; [|split].
  - repeat (first [apply Forall_nil|apply Forall_cons]); repeat constructor; vm_compute; congruence.
  - intros i j a b p q Ha Hb N Ip Iq. destruct i as [|[|[|?]]]; try discriminate; destruct j as [|[|[|?]]]; try discriminate; try contradiction;
      injection Ha as <-; injection Hb as <-; destruct Ip as [<-|[<-|[]]], Iq as [<-|[<-|[]]]; reflexivity.
  - vm_compute. reflexivity.
Qed.

(** C104. One upload received on two connections is not handed over as if its packets had come one after the other: the first
    connection has created the file of its packet and not yet written it when the second one finds the upload complete. *)
Theorem C104_torn_refuted : exists a b sched t c,
  packet_ok a /\ packet_ok b /\ pk_up a = pk_up b /\ mp_sum (pk_up a) = 2 /\ pk_seq a = 1 /\ pk_seq b = 2 /\
  nth_error (snd (interleave sched root_fs (map fresh [[a]; [b]]))) 1 = Some t /\ In (OWhole c) (th_out t) /\
  forall ps f' os, Permutation.Permutation [a; b] ps -> in_turn root_fs ps f' os -> ~ In (OWhole c) os.
Proof. exact torn. Qed.
Print Assumptions C104_torn_refuted.
(** The schedule, and what both connections would have seen had they not overlapped. *)
Example C104_case : map th_out (snd (interleave torn_sched root_fs (map fresh [[torn_p1]; [torn_p2]]))) = [[OKept]; [OWhole [3; 4]]] /\
  map th_out (snd (interleave (repeat 0%nat 12 ++ repeat 1%nat 12) root_fs (map fresh [[torn_p1]; [torn_p2]]))) = [[OKept]; [OWhole [1; 2; 3; 4]]].
Proof. split; [vm_compute; reflexivity|vm_compute; reflexivity]. Qed.
