(** The whole process, from the bytes of the connections to the handlers and
    from the senders to the bytes: C95-C97. *)
From Verif Require Import Base LibBase Bits Env EntTerm EntPlat Registry Message Codec Timer Session Multipart Server Host.
From Verif Require Import SpecGeo SpecEntity SpecMsg SpecStream SpecSession SpecMulti SpecTimer SpecServer.
From Verif Require Import Demo DemoServer DemoHost ProofStream2 ProofHost6 ProofHost7.
From Verif Require Import SpecHost.

(** C95. Whatever bytes arrive and however the goroutines interleave, the server
    inside goes through one of the histories for which its properties are proved;
    every step of the process does there what it stands for ... *)
Theorem C95_refinement env key o prior ops h tr : hruns env key o prior ops h tr ->
  hops tr = ops /\ SpecServer.runs o prior (ops_of (inner tr)) (inner tr) /\ Forall (fun x => causes (fst x) (snd x)) tr.
Proof. exact (refinement env key o prior ops h tr). Qed.
Print Assumptions C95_refinement.
(** ... the messages delivered on a session are, in order, those that its bytes
    say, up to some point ... *)
Theorem C95_prefix env key o prior ops h tr id : hruns env key o prior ops h tr -> is_prefix (delivered id (inner tr)) (fst (says env key (arrived id ops))).
Proof. exact (received_prefix env key o prior ops h tr id). Qed.
Print Assumptions C95_prefix.
(** ... all of them once the goroutine has had enough moves, and it closes the
    session if they end in an error ... *)
Theorem C95_all env key o prior a b h tr id : hruns env key o prior (a ++ b) h tr -> arrived id b = [] -> manageable (arrived id a) -> unbroken id (a ++ b) ->
  (3 * length (arrived id a) < moves id b)%nat ->
  delivered id (inner tr) = fst (says env key (arrived id a)) /\
  match snd (says env key (arrived id a)) with GotErr _ => is_shut (inner tr) id = true | Waiting => True | _ => False end.
Proof. exact (heard_all env key o prior a b h tr id). Qed.
Print Assumptions C95_all.
(** ... in particular every message of a terminal that sends valid frames. *)
Theorem C95_terminal env key o prior a b h tr id fs ms : hruns env key o prior (a ++ b) h tr -> arrived id b = [] -> unbroken id (a ++ b) ->
  Forall2 (good_frame env key) fs ms -> arrived id a = concat (map around fs) -> (3 * length (arrived id a) < moves id b)%nat -> delivered id (inner tr) = ms.
Proof. exact (terminal_to_platform env key o prior a b h tr id fs ms). Qed.
Print Assumptions C95_terminal.
Example C95_case : exists h tr, hruns demo_env None (opts false) [] (call ++ listen) h tr /\ arrived 1 listen = [] /\ unbroken 1 (call ++ listen) /\
  Forall2 (good_frame demo_env None) [beat_frame; demo_frame] [beat 13800138000 7; demo_msg] /\ arrived 1 call = concat (map around [beat_frame; demo_frame]) /\
  (3 * length (arrived 1 call) < moves 1 listen)%nat /\ handled (effects (inner tr)) = [SvHandle 1 5 (beat 13800138000 7)].
Proof.
  eexists _, _. split; [apply demo_runs; [exact calls_ok|vm_compute; reflexivity]|]. split; [vm_compute; reflexivity|]. split.
  - intros now e I. apply in_app_iff in I. destruct I as [I|I]; [cbn in I; intuition discriminate|apply repeat_spec in I; discriminate].
  - split; [exact two_good|]. split; [vm_compute; reflexivity|]. split; [apply Nat.ltb_lt; vm_compute; reflexivity|vm_compute; reflexivity].
Qed.

(** C96. The process crashes only if the bytes of a session contain, behind
    messages that decode, a frame of one byte, or if an entity whose encoder
    panics was passed to it for sending ... *)
Theorem C96_cause env key o prior sv ops : starts o prior sv -> key_ok env key -> hlegal ops -> host_run env key (Host sv []) ops = Panic ->
  (exists id, snd (says env key (arrived id ops)) = GotPanic) \/ exists e, handed ops e /\ encode env e = Panic.
Proof. exact (crash_cause env key o prior sv ops). Qed.
Print Assumptions C96_cause.
Theorem C96_bytes env key s : key_ok env key -> bytes_ok s ->
  (snd (says env key s) = GotPanic <-> exists fs ms x rest, Forall2 (fun f m => ~ In 126 f /\ msg_decode env key (around f) = Ok m) fs ms /\ x <> 126 /\ s = concat (map around fs) ++ [126; x; 126] ++ rest).
Proof. exact (says_crash env key s). Qed.
Print Assumptions C96_bytes.
(** ... such bytes do crash it, whatever else goes on ... *)
Theorem C96_sure env key o prior sv a b id : starts o prior sv -> key_ok env key -> hlegal (a ++ b) -> arrived id b = [] -> manageable (arrived id a) -> unbroken id (a ++ b) ->
  (3 * length (arrived id a) < moves id b)%nat -> snd (says env key (arrived id a)) = GotPanic -> host_run env key (Host sv []) (a ++ b) = Panic.
Proof. exact (crash_sure env key o prior sv a b id). Qed.
Print Assumptions C96_sure.
(** ... and any process is a connection and three bytes away from that. *)
Theorem C96_three_bytes env key o prior ops h tr id x now : hruns env key o prior ops h tr -> ~ In id (accepted ops) -> is_byte x -> x <> 126 ->
  host_run env key h [HOp (OConnect id now); HArrive id [126; x; 126]; HTurn id now (Avail 3); HTurn id now (Avail 3)] = Panic.
Proof. exact (three_bytes env key o prior ops h tr id x now). Qed.
Print Assumptions C96_three_bytes.
Example C96_case : (exists h tr, hruns demo_env None (opts false) [] (call ++ listen) h tr) /\ ~ In 2 (accepted (call ++ listen)) /\
  hrun None (call ++ listen ++ [HOp (OConnect 2 9); HArrive 2 (around beat_frame ++ [126; 5; 126])] ++ repeat (HTurn 2 9 (Avail 4)) 60) = Panic /\
  snd (says demo_env None (around beat_frame ++ [126; 5; 126])) = GotPanic /\ encode demo_env (E8103 (T8103 [None])) = Panic.
Proof.
  split; [eexists _, _; apply demo_runs; [exact calls_ok|vm_compute; reflexivity]|]. split; [vm_compute; intuition congruence|]. split; [vm_compute; reflexivity|]. split; [vm_compute; reflexivity|vm_compute; reflexivity].
Qed.

(** C97. What is written to a connection are the frames of messages sent on the
    session, in order and without gaps ... *)
Theorem C97_prefix env key o prior ops h tr id : hruns env key o prior ops h tr ->
  exists ws, is_prefix ws (sent_to id (inner tr)) /\ Forall2 (frame_of env) ws (wire id tr).
Proof. exact (written_prefix env key o prior ops h tr id). Qed.
Print Assumptions C97_prefix.
(** ... while it is open at most 25 of them are missing, and Send finds the
    channel full only if at least 24 are ... *)
Theorem C97_outstanding env key o prior ops h tr id : hruns env key o prior ops h tr -> is_shut (inner tr) id = false ->
  (length (sent_to id (inner tr)) <= length (wire id tr) + 25)%nat /\
  (In id (accepted ops) -> blocked (ops_of (inner tr)) id = true -> length (wire id tr) + 24 <= length (sent_to id (inner tr)))%nat.
Proof. exact (outstanding env key o prior ops h tr id). Qed.
Print Assumptions C97_outstanding.
(** ... 25 rounds of the send loop write them all, or else the first that cannot
    be encoded closes the session (its Send had succeeded) or crashes the process ... *)
Theorem C97_flushed env key o prior ops h tr id rnds : hruns env key o prior ops h tr -> In id (accepted ops) -> is_shut (inner tr) id = false -> (25 <= length rnds)%nat ->
  let sent := sent_to id (inner tr) in
  (exists h' tr', hruns env key o prior (ops ++ flush id rnds) h' (tr ++ tr') /\ is_shut (inner (tr ++ tr')) id = false /\
     sent_to id (inner (tr ++ tr')) = sent /\ Forall2 (frame_of env) sent (wire id (tr ++ tr'))) \/
  exists ws m rest, sent = ws ++ m :: rest /\
    ((exists e h' tr', msg_encode env None 0 m = Err e /\ hruns env key o prior (ops ++ flush id rnds) h' (tr ++ tr') /\ is_shut (inner (tr ++ tr')) id = true /\
       sent_to id (inner (tr ++ tr')) = sent /\ Forall2 (frame_of env) ws (wire id (tr ++ tr'))) \/
     msg_encode env None 0 m = Panic /\ host_run env key h (flush id rnds) = Panic).
Proof. exact (flushed env key o prior ops h tr id rnds). Qed.
Print Assumptions C97_flushed.
(** ... and a terminal at the other end hears them, however its reads cut the bytes. *)
Theorem C97_terminal env key o prior ops h tr id rnds rs : hruns env key o prior ops h tr -> In id (accepted ops) -> is_shut (inner tr) id = false -> (25 <= length rnds)%nat ->
  Forall2 (travels env None None) (sent_to id (inner tr)) rs ->
  exists h' tr', hruns env key o prior (ops ++ flush id rnds) h' (tr ++ tr') /\ sent_to id (inner (tr ++ tr')) = sent_to id (inner tr) /\
  forall cs tail, concat cs = concat (wire id (tr ++ tr')) -> reads_ok cs -> quiet_tail tail -> receive_all (S (length rs)) env None [] (map RData cs ++ tail) = (rs, ending tail).
Proof. exact (platform_to_terminal env key o prior ops h tr id rnds rs). Qed.
Print Assumptions C97_terminal.
Example C97_case : exists h tr, hruns demo_env None (opts false) [] ((call ++ listen) ++ talk) h tr /\ In 1 (accepted ((call ++ listen) ++ talk)) /\ is_shut (inner tr) 1 = false /\
  Forall2 (travels demo_env None None) (sent_to 1 (inner tr))
    [Message (Header 0x8001 5 13800138000 1 None) (BEnt (E8001 (T8001 7 4095 3))); Message (Header 0x8104 0 13800138000 2 None) (BEnt E8104); Message (Header 0x8201 0 13800138000 3 None) (BEnt E8201)] /\
  (exists h' tr', hrun None (((call ++ listen) ++ talk) ++ flush 1 (repeat 0 25)) = Ok (h', tr') /\ length (wire 1 tr') = 3%nat) /\
  exists e h' tr', encode demo_env (E8103 (T8103 (repeat (Some (Param 1 (repeat 0 200))) 6))) = Ok e /\ 
    hrun None ([HOp (OConnect 1 0); HOp (OSendTo 1 (E8103 (T8103 (repeat (Some (Param 1 (repeat 0 200))) 6))))] ++ flush 1 [0]) = Ok (h', tr') /\
    length (sent_to 1 (inner tr')) = 1%nat /\ wire 1 tr' = [] /\ is_shut (inner tr') 1 = true.
Proof.
  eexists _, _. split; [apply demo_runs; [exact talk_ok|vm_compute; reflexivity]|]. split; [cbn; auto|]. split; [vm_compute; reflexivity|]. split.
  - match goal with |- Forall2 _ ?l _ => replace l with [Message (Header 0x8001 0 13800138000 1 None) (BEnt (E8001 (T8001 7 4095 3))); Message (Header 0x8104 0 13800138000 2 None) (BEnt E8104);
      Message (Header 0x8201 0 13800138000 3 None) (BEnt E8201)] by (vm_compute; reflexivity) end.
    constructor; [|constructor; [|constructor; [|constructor]]].
    + eapply (travels_plain _ _ _ _ _ (E8001 (T8001 7 4095 3)) [0; 7; 15; 255; 3]); try reflexivity; cbv; intuition congruence.
    + eapply (travels_plain _ _ _ _ _ E8104 []); try reflexivity; cbv; intuition congruence.
    + eapply (travels_plain _ _ _ _ _ E8201 []); try reflexivity; cbv; intuition congruence.
  - split; [eexists _, _; split; [vm_compute; reflexivity|vm_compute; reflexivity]|].
    eexists _, _, _. split; [vm_compute; reflexivity|]. split; [vm_compute; reflexivity|]. split; [vm_compute; reflexivity|]. split; [vm_compute; reflexivity|vm_compute; reflexivity].
Qed.
