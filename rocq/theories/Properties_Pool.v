(** Properties of bodies that callers and send loops share, and of the order in which messages are written
    (session.go:70-85, server.go:106-121, protocol.go:60-98). *)
From Coq Require Import Permutation.
From Verif Require Import Base LibBase Env Registry EntTerm EntPlat Message Session SpecSession Pool SpecPool ProofPool ProofPool2 ProofPool3 ProofPool4 ProofPool5 ProofPool6 Demo DemoServer DemoPool.

(** C105. What is written is what Send was given: refuted.  A body the caller reuses after Send has returned
    is written with its later content. *)
Theorem C105_assigned_refuted : exists env ops pl evs a g s h p e b rnd d c raw, pool_runs env ops pl evs /\
  evs = a ++ VMake g s h p e :: b ++ VWire s rnd (Post h p) d :: c /\ encode env e = Ok raw /\ ~ uses_up e /\ times_sent p evs = 1%nat /\ ~ frame_of env h e rnd d.
Proof. exact assigned_refuted. Qed.
Print Assumptions C105_assigned_refuted.
(** Also if nobody ever assigns to it: of a broadcast 0x0801 only one session gets the data. *)
Theorem C105_broadcast_refuted : exists env ops pl evs a g s h p e b rnd d c raw, pool_runs env ops pl evs /\
  evs = a ++ VMake g s h p e :: b ++ VWire s rnd (Post h p) d :: c /\ encode env e = Ok raw /\ untouched_in p evs /\ ~ frame_of env h e rnd d.
Proof. exact broadcast_refuted. Qed.
Print Assumptions C105_broadcast_refuted.

(** C106. What is written has the header Send made and the content the body has at that moment. *)
Theorem C106_value env ops pl evs a s rnd m d b : pool_runs env ops pl evs -> evs = a ++ VWire s rnd m d :: b ->
  exists e, value (po_ptr m) a = Some e /\ frame_of env (po_hdr m) e rnd d.
Proof. exact (written_value env ops pl evs a s rnd m d b). Qed.
Print Assumptions C106_value.
(** It is what Send was given, if nobody assigns to the body in between; a 0x0801 may be sent only once.
    It does not matter how many other sessions were sent the same body and have encoded it. *)
Theorem C106_as_sent env ops pl evs a g s h p e b rnd d c raw : pool_runs env ops pl evs ->
  evs = a ++ VMake g s h p e :: b ++ VWire s rnd (Post h p) d :: c -> untouched_in p b -> encode env e = Ok raw -> (uses_up e -> times_sent p evs = 1%nat) ->
  frame_of env h e rnd d.
Proof. exact (as_sent env ops pl evs a g s h p e b rnd d c raw). Qed.
Print Assumptions C106_as_sent.
(** Messages leave a session in the order link took them, ... *)
Theorem C106_fifo env ops pl evs s : pool_runs env ops pl evs -> exists rest, accepted_posts s evs = dealt s evs ++ rest.
Proof. exact (fun R => ex_intro _ _ (queues env ops pl evs R s)). Qed.
Print Assumptions C106_fifo.
(** ... each at most once, and none that was not made by a call of Send for this session. *)
Theorem C106_once env ops pl evs s : pool_runs env ops pl evs -> exists rest, Permutation (made s evs) (dealt s evs ++ rest).
Proof. exact (dealt_made env ops pl evs s). Qed.
Print Assumptions C106_once.
(** At most 24 messages wait, ... *)
Theorem C106_room env ops pl evs s : pool_runs env ops pl evs -> exists rest, accepted_posts s evs = dealt s evs ++ rest /\ (length rest <= 24)%nat.
Proof. exact (waiting_room env ops pl evs s). Qed.
Print Assumptions C106_room.
(** ... and the first message a session refuses is one for which there is no room, unless somebody closed the session or its send loop failed. *)
Theorem C106_refused env ops pl evs a g s m b : pool_runs env ops pl evs -> evs = a ++ VRefused g s m :: b ->
  (exists rest, accepted_posts s a = dealt s a ++ rest /\ length rest = 24%nat) \/ In (BClose s) ops \/
  (exists g' m', In (VRefused g' s m') a) \/ (exists m' v, In (VFailed s m' v) a).
Proof. exact (refused_why env ops pl evs a g s m b). Qed.
Print Assumptions C106_refused.
(** Twenty-five messages and no send loop that takes any: the last one is refused. *)
Example C106_full : let ops := BNew ack_a :: BAccept :: concat (repeat [BMake 0 0 0; BPut 0] 25) in
  pool_runs demo_env ops (state_of ops) (did ops) /\ did ops = firstn 50 (did ops) ++ [VRefused 0 0 (Post (hdr_a 0 32769 25) 0)] /\
  length (accepted_posts 0 (did ops)) = 24%nat /\ ~ In (BClose 0) ops.
Proof. cbv zeta. split; [vm_compute; reflexivity|]. split; [vm_compute; reflexivity|]. split; [vm_compute; reflexivity|]. intro X. vm_compute in X. repeat destruct X as [X|X]; try discriminate; exact X. Qed.
(** What a body is never changes, whoever assigns to it and however its encoding fails; ... *)
Theorem C106_kind env ops pl evs p e v : pool_runs env ops pl evs -> In (VNew p e) evs -> value p evs = Some v -> entity_id v = entity_id e.
Proof. exact (value_kind env ops pl evs p e v). Qed.
Print Assumptions C106_kind.
(** ... a message is written as what it was when Send was called. *)
Theorem C106_type env ops pl evs a s rnd m d b : pool_runs env ops pl evs -> evs = a ++ VWire s rnd m d :: b ->
  exists v, value (po_ptr m) a = Some v /\ entity_id v = h_id (po_hdr m).
Proof. exact (written_kind env ops pl evs a s rnd m d b). Qed.
Print Assumptions C106_type.
(** An acknowledgement is broadcast, the second session writes it after the first has encoded it. *)
Example C106_case : let evs := did (ops_broadcast ack_a) in let h := hdr_a 13800138001 32769 1 in
  pool_runs demo_env (ops_broadcast ack_a) (state_of (ops_broadcast ack_a)) evs /\
  evs = firstn 3 evs ++ VMake 0 1 h 0 ack_a :: firstn 2 (skipn 4 evs) ++ VWire 1 0 (Post h 0) (bytes_at 6 evs) :: [] /\
  untouched_in 0 (firstn 2 (skipn 4 evs)) /\ encode demo_env ack_a = Ok [0; 7; 2; 0; 0] /\ ~ uses_up ack_a /\ times_sent 0 evs = 2%nat /\
  bytes_at 6 evs = [126; 128; 1; 0; 5; 1; 56; 0; 19; 128; 1; 0; 1; 0; 7; 2; 0; 0; 43; 126] /\ made 1 evs = [Post h 0] /\ dealt 1 evs = [Post h 0].
Proof.
  cbv zeta. split; [vm_compute; reflexivity|]. split; [vm_compute; reflexivity|]. split; [intros e X; vm_compute in X; repeat destruct X as [X|X]; try discriminate; exact X|].
  split; [vm_compute; reflexivity|]. split; [intros (x & X); discriminate|]. split; [vm_compute; reflexivity|]. split; [vm_compute; reflexivity|]. split; vm_compute; reflexivity.
Qed.

(** C107. Messages of a session are written in the order of their serial numbers: refuted, two goroutines can pass each
    other between drawing the number and handing the message to link. *)
Theorem C107_passed_refuted : exists env ops pl evs s a m1 d1 b m2 d2 c, pool_runs env ops pl evs /\
  evs = a ++ VWire s 0 m1 d1 :: b ++ VWire s 0 m2 d2 :: c /\ dealt s evs = [m1; m2] /\ h_serial (po_hdr m1) = serial 1 /\ h_serial (po_hdr m2) = serial 0.
Proof. exact passed_refuted. Qed.
Print Assumptions C107_passed_refuted.

(** C108. If calls of Send for a session do not overlap, its messages are written in the order they were made, ... *)
Theorem C108_order env ops pl evs s : pool_runs env ops pl evs -> one_at_a_time s false evs -> exists rest, made s evs = dealt s evs ++ rest.
Proof. exact (dealt_order env ops pl evs s). Qed.
Print Assumptions C108_order.
(** ... and carry 1, 2, ..., 255, 1, ... without a gap, whatever the other sessions do, also if link refuses messages. *)
Theorem C108_serials env ops pl evs s i m : pool_runs env ops pl evs -> one_at_a_time s false evs -> nth_error (dealt s evs) i = Some m -> h_serial (po_hdr m) = serial i.
Proof. exact (wire_serials env ops pl evs s i m). Qed.
Print Assumptions C108_serials.
(** Three messages by two goroutines, two of the same body *)
Example C108_case : pool_runs demo_env ops_in_turn (state_of ops_in_turn) (did ops_in_turn) /\ one_at_a_time 0 false (did ops_in_turn) /\
  map (fun m => (h_serial (po_hdr m), po_ptr m)) (dealt 0 (did ops_in_turn)) = [(1, 0%nat); (2, 1%nat); (3, 0%nat)].
Proof. split; [vm_compute; reflexivity|]. split; [vm_compute; auto 10|vm_compute; reflexivity]. Qed.
