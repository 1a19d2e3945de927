(** Sessions: C25, C30-C34, C73-C77.  A history is any list of atomic steps of
    any number of calls of Send, Reply and Request and of the receiving goroutine. *)
From Verif Require Import Base LibBase Bits GoTime Decimal Env EntTerm EntPlat Registry Message Codec Session.
From Verif Require Import SpecSession Demo ProofSession ProofSession2 ProofSession3 ProofSession4.

(** C25 does not hold: with a public key set, what Send transmits is readable
    without any key. *)
Theorem C25_encrypts_refuted : exists env pub rnd s e data m, codec_send env (Some pub) rnd None (fst (session_send s e)) = Ok data /\
  msg_decode env None data = Ok m /\ m_body m = BEnt e /\ Z.testbit (h_prop (m_hdr m)) 10 = false.
Proof. exact send_readable. Qed.
Print Assumptions C25_encrypts_refuted.
(** C73. Send never encrypts: the bytes are the same with and without a key. *)
Theorem C73_never_encrypts env pub rnd wr s e :
  codec_send env pub rnd wr (fst (session_send s e)) = codec_send env None 0 wr (fst (session_send s e)).
Proof. exact (send_plain env pub rnd wr s e). Qed.
Print Assumptions C73_never_encrypts.
Example C73_case : codec_send demo_env (Some 5) 7 None (fst (session_send (Session 255 1 []) (E0001 (T0001 125 512 0)))) = Ok [126; 0; 1; 0; 5; 0; 0; 0; 0; 0; 1; 0; 1; 0; 125; 1; 2; 0; 0; 123; 126].
Proof. vm_compute. reflexivity. Qed.

(** C30. Under every schedule of any number of goroutines inside nextID, the
    numbers returned are, in order of the compare-and-swaps, 1, ..., 255, 1, ... *)
Theorem C30_serials threads sched k i n : nth_error (rev (n_out (nrun (NCfg 0 (repeat NLoad threads) []) sched))) k = Some (i, n) ->
  n = serial k /\ 1 <= n <= 255.
Proof. exact (fun H => conj (serials threads sched k i n H) (eq_ind_r (fun x => 1 <= x <= 255) (serial_range k) (serials threads sched k i n H))). Qed.
Print Assumptions C30_serials.
(** Any 255 consecutive ones are distinct. *)
Theorem C30_distinct i j : (i < j < i + 255)%nat -> serial i <> serial j.
Proof. exact (fun L E => Nat.lt_neq i j (proj1 L) (serial_inj i j (conj (Nat.lt_le_incl _ _ (proj1 L)) (proj2 L)) E)). Qed.
Print Assumptions C30_distinct.
(** The numbers drawn in a session's history are these as well, and a message
    carries the number its own call drew. *)
Theorem C30_session ops c k : NoDup (started ops) -> srun sinit ops = Ok c -> (k < length (drawn (sc_log c)))%nat ->
  nth_error (rev (drawn (sc_log c))) k = Some (serial k).
Proof. exact (drawn_serials ops c k). Qed.
Print Assumptions C30_session.
Theorem C30_sent ops c pre tok m post : NoDup (started ops) -> srun sinit ops = Ok c ->
  sc_log c = pre ++ EvSent tok m :: post -> In (EvNext tok (h_serial (m_hdr m))) post.
Proof. exact (sent_drawn ops c pre tok m post). Qed.
Print Assumptions C30_sent.
Example C30_case : n_out (nrun (NCfg 0 (repeat NLoad 2) []) [0; 1; 1; 0; 0; 0]%nat) = [(0%nat, 2); (1%nat, 1)] /\
  serial 254 = 255 /\ serial 255 = 1 /\ NoDup (started wrap_history) /\ exists c, srun sinit wrap_history = Ok c /\ length (drawn (sc_log c)) = 256%nat.
Proof. split; [reflexivity|]. split; [reflexivity|]. split; [reflexivity|]. split; [exact wrap_started|]. eexists. split; vm_compute; reflexivity. Qed.

(** C74. nextID is lock-free: a failed compare-and-swap is paid for by another
    goroutine's success. *)
Theorem C74_lock_free threads sched : let c0 := NCfg 0 (repeat NLoad threads) [] in
  (nfails c0 sched <= threads * length (n_out (nrun c0 sched)))%nat.
Proof. exact (lock_free threads sched). Qed.
Print Assumptions C74_lock_free.
Example C74_case : nfails (NCfg 0 (repeat NLoad 3) []) [0; 1; 2; 0; 1; 2]%nat = 2%nat.
Proof. reflexivity. Qed.

(** C31. A callback runs at most once, and only with an answer that quotes the
    serial number under which its own request was sent before. *)
Theorem C31_callback_once ops c : NoDup (started ops) -> srun sinit ops = Ok c ->
  NoDup (answered (sc_log c)) /\
  forall pre tok m post, sc_log c = pre ++ EvAnswer tok m :: post -> exists m0, In (EvSent tok m0) post /\ answers m (h_serial (m_hdr m0)).
Proof. exact (callback_once ops c). Qed.
Print Assumptions C31_callback_once.
Example C31_case : NoDup (started replace_history) /\ exists c, srun sinit replace_history = Ok c /\ answered (sc_log c) = [2].
Proof. split; [repeat constructor; cbn; intuition congruence|]. eexists. split; [vm_compute; reflexivity|]. reflexivity. Qed.

(** C32 does not hold: the 256th message repeats the serial number of the first;
    the answer to it (0x0201 to the location query 0x8201) goes to the callback
    of the first request (the parameter query 0x8104). *)
Theorem C32_right_request_refuted : exists ops c m m1 m2 p1 p2, NoDup (started ops) /\ srun sinit ops = Ok c /\
  sc_log c = EvAnswer 1 m :: EvSent 256 m2 :: p1 ++ EvSent 1 m1 :: p2 /\ ~ In 256 (answered (sc_log c)) /\
  proper m /\ answers m (h_serial (m_hdr m2)) /\ m_body m2 = BEnt E8201 /\ h_id (m_hdr m) = 513 /\ m_body m1 = BEnt E8104.
Proof. exact wrong_answer. Qed.
Print Assumptions C32_right_request_refuted.
(** It holds while fewer than 255 further numbers have been drawn: no later call
    has the serial number the answer quotes. *)
Theorem C32_right_request_partial ops c : NoDup (started ops) -> srun sinit ops = Ok c ->
  forall pre tok m post, sc_log c = pre ++ EvAnswer tok m :: post ->
  exists n p1 p2, post = p1 ++ EvNext tok n :: p2 /\ answers m n /\ ((length (drawn p1) < 255)%nat -> ~ In n (drawn p1)).
Proof. exact (right_answer ops c). Qed.
Print Assumptions C32_right_request_partial.
Example C32_case : exists c p, srun sinit replace_history = Ok c /\ sc_log c = [] ++ EvAnswer 2 (answer_0201 2) :: p.
Proof. eexists. eexists. split; [vm_compute; reflexivity|]. reflexivity. Qed.

(** C33 does not hold: the answer may come before the request is registered ... *)
Theorem C33_race_refuted : exists ops c m m0, NoDup (started ops) /\ srun sinit ops = Ok c /\ In (SIcc m) ops /\ proper m /\
  In (EvSent 1 m0) (sc_log c) /\ answers m (h_serial (m_hdr m0)) /\ answered (sc_log c) = [] /\ sc_calls c = [] /\ sc_busy c = None.
Proof. exact race. Qed.
Print Assumptions C33_race_refuted.
(** ... and a second request of the same type replaces the first. *)
Theorem C33_replaced_refuted : exists ops c m m0, NoDup (started ops) /\ srun sinit ops = Ok c /\ In (SIcc m) ops /\ proper m /\
  In (EvSent 1 m0) (sc_log c) /\ answers m (h_serial (m_hdr m0)) /\ answered (sc_log c) = [2] /\ sc_calls c = [] /\ sc_busy c = None.
Proof. exact replaced_lost. Qed.
Print Assumptions C33_replaced_refuted.
(** It holds once the request is registered, if no request of the same type is
    registered later and no other pending request has the same serial number. *)
Theorem C33_pending_partial r c ops c1 m : rq_serial r <> 0 -> In r (ss_reqs (sc_sess c)) -> undisturbed r c ops -> srun c ops = Ok c1 ->
  (forall x, In x (ss_reqs (sc_sess c1)) -> rq_serial x = rq_serial r -> x = r) ->
  sc_busy c1 = Some m -> proper m -> answers m (rq_serial r) ->
  exists c2, sstep c1 STake = Ok c2 /\ sc_log c2 = EvAnswer (rq_tok r) m :: sc_log c1.
Proof. exact (pending_answered r c ops c1 m). Qed.
Print Assumptions C33_pending_partial.
Example C33_case : let r := Request 33281 1 1 in exists c c1 ops, In r (ss_reqs (sc_sess c)) /\ undisturbed r c ops /\ srun c ops = Ok c1 /\
  ss_reqs (sc_sess c1) = [r; Request 33028 2 2] /\ sc_busy c1 = Some (answer_0201 1).
Proof.
  cbv zeta. exists (SCfg (Session 1 0 [Request 33281 1 1]) [] None []). eexists. exists [SStart 2 true E8104; SNext 2; SWire 2 true; SAdd 2; SIcc (answer_0201 1)].
  split; [left; reflexivity|]. split; [|split; [vm_compute; reflexivity|split; reflexivity]].
  cbn [undisturbed]. repeat (split; [exact I|intros ? H; injection H as <-]). split; [cbn; discriminate|]. intros ? H. injection H as <-.
  split; [exact I|]. intros. exact I.
Qed.

(** C75. What an answer does, exactly: the first pending request with the quoted
    serial number is taken and its callback run; without one nothing happens. *)
Theorem C75_answer_exact c m n : sc_busy c = Some m -> proper m -> answers m n -> n <> 0 ->
  exists c', sstep c STake = Ok c' /\
  ((exists l1 r l2, ss_reqs (sc_sess c) = l1 ++ r :: l2 /\ rq_serial r = n /\ Forall (fun x => rq_serial x <> n) l1 /\ sc_log c' = EvAnswer (rq_tok r) m :: sc_log c) \/
   (Forall (fun x => rq_serial x <> n) (ss_reqs (sc_sess c)) /\ sc_log c' = sc_log c)).
Proof. exact (take_exact c m n). Qed.
Print Assumptions C75_answer_exact.
Example C75_case : proper (answer_0201 3) /\ answers (answer_0201 3) 3.
Proof. split; [exists (E0201 (T0201 3 spot)); split; reflexivity|exists (E0201 (T0201 3 spot)); split; [reflexivity|constructor]]. Qed.

(** C34. At most one pending request per message ID, at most 65 in all ... *)
Theorem C34_one_per_id ops c : NoDup (started ops) -> srun sinit ops = Ok c ->
  NoDup (map rq_msgid (ss_reqs (sc_sess c))) /\ (length (ss_reqs (sc_sess c)) <= 65)%nat.
Proof. exact (fun N H => conj (one_per_id ops c N H) (pending_bound ops c N H)). Qed.
Print Assumptions C34_one_per_id.
(** ... and registering one replaces exactly the older one of the same ID. *)
Theorem C34_replaces c tok c' cl n : find_call (sc_calls c) tok = Some cl -> cl_serial cl = Some n -> cl_sent cl = true -> NoDup (map rq_msgid (ss_reqs (sc_sess c))) ->
  sstep c (SAdd tok) = Ok c' ->
  forall r, In r (ss_reqs (sc_sess c')) <-> r = Request (entity_id (cl_ent cl)) n tok \/ In r (ss_reqs (sc_sess c)) /\ rq_msgid r <> entity_id (cl_ent cl).
Proof. exact (replaced c tok c' cl n). Qed.
Print Assumptions C34_replaces.
Example C34_case : exists c c', srun sinit (firstn 7 replace_history) = Ok c /\ sstep c (SAdd 2) = Ok c' /\ ss_reqs (sc_sess c) = [Request 33281 1 1] /\ ss_reqs (sc_sess c') = [Request 33281 2 2].
Proof. eexists. eexists. repeat (split; [vm_compute; reflexivity|]). reflexivity. Qed.

(** C76. The receiving goroutine does not crash on messages whose body has the
    type the header announces, whatever the calls do. *)
Theorem C76_no_crash ops : Forall proper (arrivals ops) -> exists c, srun sinit ops = Ok c.
Proof. exact (no_crash ops). Qed.
Print Assumptions C76_no_crash.
Example C76_case : Forall proper (arrivals wrap_history) /\ length (arrivals wrap_history) = 1%nat.
Proof. split; [|reflexivity]. repeat constructor. exists (E0201 (T0201 1 spot)). split; reflexivity. Qed.

(** C77. Every message a session sends carries the ID of its body, no packet
    and no flags, and the terminal number 0 or one the terminal announced. *)
Theorem C77_sent ops c m : srun sinit ops = Ok c -> In m (wired (sc_log c)) ->
  announced (arrivals ops) (h_icc (m_hdr m)) /\ h_prop (m_hdr m) = 0 /\ h_packet (m_hdr m) = None /\ exists e, m_body m = BEnt e /\ h_id (m_hdr m) = entity_id e.
Proof. exact (sent_as ops c m). Qed.
Print Assumptions C77_sent.
Example C77_case : exists c, srun sinit race_history = Ok c /\ wired (sc_log c) = [Message (Header 33281 0 0 1 None) (BEnt E8201)] /\ announced (arrivals race_history) 1.
Proof. eexists. split; [vm_compute; reflexivity|]. split; [reflexivity|]. right. exists (answer_0201 1). split; [left; reflexivity|]. split; reflexivity. Qed.
