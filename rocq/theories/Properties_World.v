(** Properties C125-C131: the whole process, its goroutines interleaved in any way. *)
From Verif Require Import Base LibBase Env EntTerm EntPlat Registry Message Codec Session Multipart Server Host Overlap Fine World.
From Verif Require Import SpecMsg SpecStream SpecMulti SpecServer SpecHost SpecOverlap SpecFine SpecWorld ProofWorld7 ProofWorld8 ProofWorld10 ProofWorld11 ProofWorld12 Demo DemoServer DemoHost DemoWorld.

(** C125. Whatever bytes arrive on however many connections, what the server does are steps its goroutines can take:
    C113-C124 hold of it with the messages, the results of uploads, the errors and the full queues that the bytes and files bring about. *)
Theorem C125_steps env key merging ka f evs : occurs env key merging ka f evs -> happens merging ka (inside evs).
Proof. exact (inside_happens env key merging ka f evs). Qed.
Print Assumptions C125_steps.
(** Two uploads received at once, a request, a broken frame, the timer: 65 things happen, 56 of them are done by the server. *)
Example C125_case : occurs demo_env None true 60 empty_fs the_events /\ length the_events = 65%nat /\ length (inside the_events) = 56%nat.
Proof. split; [exact events_occur|]. split; vm_compute; reflexivity. Qed.

(** C126. The messages that the goroutine of a session receives are those that the bytes on its connection say, in order; ... *)
Theorem C126_received env key merging ka f evs id : occurs env key merging ka f evs -> is_prefix (got_by id (inside evs)) (fst (says env key (came id evs))).
Proof. exact (got_prefix env key merging ka f evs id). Qed.
Print Assumptions C126_received.
(** ... it ends if they are wrong or too long, if a read fails, or if the session is closed and everything that came was received. *)
Theorem C126_ended env key merging ka f evs id a b : occurs env key merging ka f evs -> evs = a ++ WFine (XFail id) :: b -> ends_because env key id a.
Proof. exact (end_reason env key merging ka f evs id a b). Qed.
Print Assumptions C126_ended.
(** Session 2 receives two packets of an upload and ends because what follows is no frame. *)
Example C126_case : occurs demo_env None true 60 empty_fs the_events /\ length (got_by 2 (inside the_events)) = 2%nat /\ length (got_by 1 (inside the_events)) = 2%nat /\
  the_events = firstn 60 the_events ++ WFine (XFail 2) :: skipn 61 the_events /\ says demo_env None (came 2 (firstn 60 the_events)) = (got_by 2 (inside (firstn 60 the_events)), GotErr ErrInvalidCheckSum).
Proof. split; [exact events_occur|]. do 3 (split; [vm_compute; reflexivity|]). vm_compute. reflexivity. Qed.

(** C127. What is written to a connection are the frames of the messages that link took on the session, in that order; none is
    skipped, and no more than 25 are outstanding. *)
Theorem C127_written env key merging ka f evs id : occurs env key merging ka f evs ->
  exists ws rest, handed id (inside evs) = ws ++ rest /\ Forall2 (frame_of env) ws (wrote id evs) /\ (length rest <= 25)%nat.
Proof. exact (wrote_prefix env key merging ka f evs id). Qed.
Print Assumptions C127_written.
(** link refuses a message only if the session is closed or 24 messages wait. *)
Theorem C127_refused env key merging ka f evs id tok a b : occurs env key merging ka f evs -> evs = a ++ WFine (XWire id tok None) :: b ->
  In (XShut id) (inside a) \/ (length (wrote id a) + 24 <= length (handed id (inside a)))%nat.
Proof. exact (refused env key merging ka f evs id tok a b). Qed.
Print Assumptions C127_refused.
(** A request and two replies on session 1 *)
Example C127_case : occurs demo_env None true 60 empty_fs the_events /\ map (fun m => h_id (m_hdr m)) (handed 1 (inside the_events)) = [0x8104; 0x8001; 0x8001] /\
  map (fun m => h_serial (m_hdr m)) (handed 1 (inside the_events)) = [1; 2; 3] /\ length (wrote 1 the_events) = 3%nat.
Proof. split; [exact events_occur|]. do 2 (split; [vm_compute; reflexivity|]). vm_compute. reflexivity. Qed.
(** The 25th of 25 messages sent before one is written *)
Example C127_refused_case : occurs demo_env None false 60 empty_fs too_many_events /\ too_many_events = firstn 75 too_many_events ++ [WFine (XWire 1 24 None); WFine (XShut 1)] /\
  existsb (fun ev => match ev with XShut _ => true | _ => false end) (inside (firstn 75 too_many_events)) = false /\ length (handed 1 (inside (firstn 75 too_many_events))) = 24%nat.
Proof. split; [exact too_many_occur|]. do 2 (split; [vm_compute; reflexivity|]). vm_compute. reflexivity. Qed.

(** C128. No interleaving crashes the process unless the bytes of a session have brought it to a frame of one byte (C96_bytes) or the
    application has passed it an entity whose encoder panics. *)
Theorem C128_crash env key merging ka f ops : key_ok env key -> wlegal ops -> wrun env key (world_init merging ka f) ops = Panic ->
  exists pre op post w evs, ops = pre ++ op :: post /\ wrun env key (world_init merging ka f) pre = Ok (w, evs) /\
    ((exists id, snd (says env key (came id evs)) = GotPanic) \/ exists id e, passed id e (inside evs) /\ encode env e = Panic).
Proof. exact (world_crash env key merging ka f ops). Qed.
Print Assumptions C128_crash.
(** Three bytes on a connection; a command that sets an absent parameter *)
Example C128_case : wlegal three_bytes_arrive /\ world_of false three_bytes_arrive = Panic /\ wlegal absent_parameter /\ world_of false absent_parameter = Panic.
Proof. split; [apply lawful_legal; vm_compute; reflexivity|]. split; [vm_compute; reflexivity|]. split; [apply lawful_legal; vm_compute; reflexivity|]. vm_compute. reflexivity. Qed.

(** C129. Uploads received at the same time on different sessions: if none is received on two of them, every packet becomes what it
    would have become had the packets of its session been stored and merged one after the other with nothing in between. *)
Theorem C129_uploads env key merging ka f evs id : key_ok env key -> occurs env key merging ka f evs -> fs_ok f -> separate merging (inside evs) ->
  exists f' os, in_turn f (packets merging id (inside evs)) f' os /\ is_prefix (results id (inside evs)) (flat_map (shown id) os).
Proof. exact (fun K H => uploads env key merging ka f K evs id H). Qed.
Print Assumptions C129_uploads.
(** The packets of the two uploads are stored in alternation; one is merged with its last packet, the other came in the wrong order. *)
Example C129_case : occurs demo_env None true 60 empty_fs the_events /\ fs_ok empty_fs /\ separate true (inside the_events) /\
  results 1 (inside the_events) = [XStored 1 true; XMerged 1 None; XStored 1 true; XMerged 1 (Some [1; 2; 3])] /\
  results 2 (inside the_events) = [XStored 2 true; XMerged 2 None; XStored 2 true; XMerged 2 None].
Proof.
  split; [exact events_occur|]. split; [intros r d; cbn; discriminate|]. split; [exact events_separate|]. split; vm_compute; reflexivity.
Qed.

(** C130. Left to itself, with bytes read as they come and writes that succeed, the process comes to rest, whatever the schedule:
    there is a bound on what can still happen, ... *)
Theorem C130_ends env key merging ka f ops w evs : key_ok env key -> wlegal ops -> wrun env key (world_init merging ka f) ops = Ok (w, evs) ->
  exists n, forall more w' e, forallb wself more = true -> wrun env key w more = Ok (w', e) -> (length e <= n)%nat.
Proof. exact (fun K => bounded env key merging ka f K ops w evs). Qed.
Print Assumptions C130_ends.
(** ... no schedule goes on for ever, ... *)
Theorem C130_stops env key merging ka f ops w evs ws moves : key_ok env key -> wlegal ops -> wrun env key (world_init merging ka f) ops = Ok (w, evs) -> ws O = w ->
  ~ forall i, wself (moves i) = true /\ wstep env key (ws i) (moves i) <> Ok (ws i, []) /\ exists e, wstep env key (ws i) (moves i) = Ok (ws (S i), e).
Proof. exact (fun K => stops env key merging ka f K ops w evs ws moves). Qed.
Print Assumptions C130_stops.
(** ... when nothing moves any more everything is done, down to the bytes and the files, ... *)
Theorem C130_rest env key merging ka f ops w evs : key_ok env key -> wlegal ops -> wrun env key (world_init merging ka f) ops = Ok (w, evs) ->
  (forall op, wself op = true -> wstep env key w op = Ok (w, [])) -> completed env key merging f evs.
Proof. exact (fun K => completes env key merging ka f K ops w evs). Qed.
Print Assumptions C130_rest.
(** ... and this can be reached from everywhere, unless there is a crash on the way (C128). *)
Theorem C130_reached env key merging ka f ops w evs : key_ok env key -> wlegal ops -> wrun env key (world_init merging ka f) ops = Ok (w, evs) ->
  exists more, forallb wself more = true /\ (wrun env key w more = Panic \/ exists w' e, wrun env key w more = Ok (w', e) /\ completed env key merging f (evs ++ e)).
Proof. exact (fun K => can_complete env key merging ka f K ops w evs). Qed.
Print Assumptions C130_reached.
(** An upload of two packets arrives, is merged and answered; then nothing moves. *)
Example C130_case : wlegal one_upload /\ wrun demo_env None (world_init true 60 empty_fs) one_upload = Ok (resting, rested_events) /\
  (forall op, wself op = true -> wstep demo_env None resting op = Ok (resting, [])) /\
  length (got_by 1 (inside rested_events)) = 2%nat /\ length (wrote 1 rested_events) = 2%nat /\ results 1 (inside rested_events) = [XStored 1 true; XMerged 1 None; XStored 1 true; XMerged 1 (Some [1; 2; 3])].
Proof.
  split; [apply lawful_legal; vm_compute; reflexivity|]. split; [exact rested_run|]. split; [exact resting_rests|]. do 2 (split; [vm_compute; reflexivity|]). vm_compute. reflexivity.
Qed.

(** C131. Whatever the other goroutines do: at the step at which a packet of an upload is stored as far as the server can tell (it will be
    answered with success), it is in its file, from the beginning. *)
Theorem C131_stored env key merging ka f ops op w evs w' e id : key_ok env key -> wlegal (ops ++ [op]) -> wrun env key (world_init merging ka f) ops = Ok (w, evs) ->
  wstep env key w op = Ok (w', e) -> In (XStored id true) (inside e) -> exists ps p, packets merging id (inside evs) = ps ++ [p] /\ on_disk (wo_fs w') p.
Proof. exact (fun K => stored env key merging ka f K ops op w evs w' e id). Qed.
Print Assumptions C131_stored.
(** The first packet of two *)
Example C131_case : wlegal (nearly_stored ++ [WFile 1]) /\ wrun demo_env None (world_init true 60 empty_fs) nearly_stored = Ok (nearly, nearly_events) /\
  wstep demo_env None nearly (WFile 1) = Ok (then_stored, [WFine (XStored 1 true)]) /\ map pk_data (packets true 1 (inside nearly_events)) = [[1; 2]] /\
  forallb (fun p => match alist_get (fs_dirs (wo_fs nearly)) (root_dir (pk_up p)) with Some d => match alist_get d (part_name (pk_up p) (pk_seq p)) with Some [] => true | _ => false end | None => false end)
    (packets true 1 (inside nearly_events)) = true.
Proof. split; [apply lawful_legal; vm_compute; reflexivity|]. split; [exact nearly_run|]. split; [exact then_run|]. split; vm_compute; reflexivity. Qed.
