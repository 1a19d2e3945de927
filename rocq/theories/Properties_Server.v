(** Properties of the server (server.go, session_handler.go) over all histories:
    any sequence of connections, messages from the wire, sends, requests, closes,
    ticks and broadcasts, in any interleaving ([legal]: session IDs and request
    names are new, messages arrive on accepted sessions and look as C90 says),
    started with any multipart files left by earlier calls ([runs]). *)
From Coq Require Import Sorted Permutation.
From Verif Require Import Base LibBase Env EntTerm EntPlat Registry Message Timer Session Multipart Server.
From Verif Require Import SpecFrame SpecMsg SpecSession SpecMulti SpecTimer SpecServer DemoServer Demo.
From Verif Require Import ProofServer4 ProofServer5 ProofServer6 ProofServer7.

(** C83. No history crashes the server, and every operation has exactly the effects described by [effect]. *)
Theorem C83_no_crash o prior sv ops : starts o prior sv -> legal ops -> exists sv' tr, sv_run sv ops = Ok (sv', tr) /\ ops_of tr = ops.
Proof. exact (server_total o prior sv ops). Qed.
Print Assumptions C83_no_crash.
Theorem C83_exact o prior ops tr pre op evs post : runs o prior ops tr -> tr = pre ++ (op, evs) :: post -> effect (opt_auto o) (keepalive o) prior pre op evs.
Proof. exact (server_exact o prior ops tr pre op evs post). Qed.
Print Assumptions C83_exact.
Example C83_case : starts (opts false) [] (srv false) /\ legal traffic /\ length (effects (trace_of false traffic)) = 15%nat.
Proof. split; [apply srv_starts|]. split; [exact traffic_ok|vm_compute; reflexivity]. Qed.

(** C37. Traffic does not always keep a session alive: without a handler the timer is not refreshed. *)
Theorem C37_keepalive_refuted : exists o ops tr a id u m es b now evs c, runs o [] ops tr /\ clock_ok o ops /\ tr = a ++ (ODeliver id u m, es) :: b ++ (OTick now, evs) :: c /\
  has_body m = true /\ part_of (opt_auto o) m = None /\ now < u + keepalive o /\ In (SvShut id) evs.
Proof. exact timeout_despite_traffic. Qed.
Print Assumptions C37_keepalive_refuted.
(** Traffic that reaches a handler does. *)
Theorem C37_keepalive_partial o prior ops tr a id u m es b now evs c : runs o prior ops tr -> clock_ok o ops -> tr = a ++ (ODeliver id u m, es) :: b ++ (OTick now, evs) :: c ->
  passes (opt_auto o) (hi_up (history (opt_auto o) prior (ops_of a))) m = true -> handler_of (ops_of a) (h_id (m_hdr m)) <> None -> now < u + keepalive o -> ~ In (SvShut id) evs.
Proof. exact (kept_alive o prior ops tr a id u m es b now evs c). Qed.
Print Assumptions C37_keepalive_partial.
Example C37_case : clock_ok (opts false) traffic /\ runs (opts false) [] traffic (trace_of false traffic) /\
  let tr := trace_of false traffic in exists a es b evs c, tr = a ++ (ODeliver 1 50 (beat 138 2), es) :: b ++ (OTick 64, evs) :: c /\
  passes false (hi_up (history false [] (ops_of a))) (beat 138 2) = true /\ handler_of (ops_of a) 2 = Some 5 /\ 64 < 50 + keepalive (opts false).
Proof.
  split; [unfold clock_ok, ordinary, traffic; cbn; split; [repeat constructor; lia|]; split; [repeat constructor; lia|lia]|]. split; [apply trace_runs, traffic_ok|].
  exists (firstn 8 (trace_of false traffic)). eexists. exists (firstn 2 (skipn 9 (trace_of false traffic))). eexists. exists (skipn 12 (trace_of false traffic)).
  split; [vm_compute; reflexivity|]. split; [vm_compute; reflexivity|]. split; [vm_compute; reflexivity|vm_compute; reflexivity].
Qed.
(** C85. A tick closes exactly the registered open sessions whose deadline has
    passed; the deadline is the keepalive after the last refresh. *)
Theorem C85_tick o prior ops tr pre now evs post id : runs o prior ops tr -> tr = pre ++ (OTick now, evs) :: post ->
  In (SvShut id) evs <-> registered pre id = true /\ is_shut pre id = false /\ exists d, deadlines (keepalive o) pre id = Some d /\ d <= now.
Proof. exact (tick_exact o prior ops tr pre now evs post id). Qed.
Print Assumptions C85_tick.
Theorem C85_last_refresh o prior ops tr pre now evs post id : runs o prior ops tr -> tr = pre ++ (OTick now, evs) :: post -> In (SvShut id) evs ->
  exists a op es b u, pre = a ++ (op, es) :: b /\ In (SvRefresh id u) es /\ wrapped u (keepalive o) <= now /\ (forall u', ~ In (SvRefresh id u') (effects b)).
Proof. exact (tick_shut o prior ops tr pre now evs post id). Qed.
Print Assumptions C85_last_refresh.
Example C85_case : exists pre evs post, trace_of false traffic = pre ++ (OTick 64, evs) :: post /\ evs = [SvShut 2] /\ deadlines 60 pre 1 = Some 110 /\ deadlines 60 pre 2 = Some 63.
Proof. at_step 11%nat. split; [vm_compute; reflexivity|]. split; [vm_compute; reflexivity|vm_compute; reflexivity]. Qed.

(** C38. The handler calls of a history are those of its messages with a body, in
    order, each to the handler registered at that time; messages of uploads that
    the server merges are C43 and C87. *)
Theorem C38_dispatch o prior ops tr : runs o prior ops tr -> (forall id now m, In (ODeliver id now m) ops -> part_of (opt_auto o) m = None) -> handled (effects tr) = dispatched [] ops.
Proof. exact (dispatch_all o prior ops tr). Qed.
Print Assumptions C38_dispatch.
(** Each comes after the callback of a waiting request that the message answers. *)
Theorem C38_order o prior ops tr pre id now m evs post : runs o prior ops tr -> tr = pre ++ (ODeliver id now m, evs) :: post -> has_body m = true -> part_of (opt_auto o) m = None ->
  exists ans, evs = ans ++ match handler_of (ops_of pre) (h_id (m_hdr m)) with Some h => [SvRefresh id now; SvHandle id h m] | None => [] end /\
    (ans = [] /\ (forall r, In (id, r) (waiting pre) -> ~ answers m (rq_serial r)) \/ exists r, In (id, r) (waiting pre) /\ answers m (rq_serial r) /\ ans = [SvAnswer id (rq_tok r) m]).
Proof. exact (dispatch_order o prior ops tr pre id now m evs post). Qed.
Print Assumptions C38_order.
(** Nothing else calls a handler. *)
Theorem C38_only o prior ops tr pre op evs post : runs o prior ops tr -> tr = pre ++ (op, evs) :: post -> handled evs <> [] -> exists id now m, op = ODeliver id now m.
Proof. exact (handled_only o prior ops tr pre op evs post). Qed.
Print Assumptions C38_only.
Example C38_case : runs (opts false) [] traffic (trace_of false traffic) /\ (forall id now m, In (ODeliver id now m) traffic -> part_of false m = None) /\
  dispatched [] traffic = [SvHandle 1 5 (beat 138 1); SvHandle 1 5 (beat 138 2)].
Proof.
  split; [apply trace_runs, traffic_ok|]. split; [|vm_compute; reflexivity]. intros id now m I. unfold traffic in I. cbn [In] in I. unfold part_of.
  destruct (h_packet (m_hdr m)) as [[? ?]|]; auto. destruct (m_body m) as [| |[]]; reflexivity.
Qed.

(** C39. A message without a readable body is answered with result 3 and not dispatched. *)
Theorem C39_unsupported o prior ops tr pre id now m evs post : runs o prior ops tr -> tr = pre ++ (ODeliver id now m, evs) :: post -> has_body m = false ->
  handled evs = [] /\ answered_in evs = [] /\
  (is_shut pre id = false -> blocked (ops_of pre) id = false ->
   exists icc n, evs = [SvSend id (Message (Header 0x8001 0 icc n None) (BEnt (E8001 (T8001 (h_serial (m_hdr m)) (h_id (m_hdr m)) 3))))]).
Proof. exact (unsupported o prior ops tr pre id now m evs post). Qed.
Print Assumptions C39_unsupported.
Example C39_case : exists pre evs post, trace_of false traffic = pre ++ (ODeliver 2 11 (strange 139 1), evs) :: post /\ is_shut pre 2 = false /\ blocked (ops_of pre) 2 = false.
Proof. at_step 7%nat. split; [vm_compute; reflexivity|vm_compute; reflexivity]. Qed.

(** C43. A complete upload is not always handed over, ... *)
Theorem C43_lost_refuted : exists o ops tr mf, runs o [] ops tr /\ opt_auto o = true /\ Permutation (numbers (packets mf ops)) (upto (mp_sum mf)) /\
  (forall i, handler_of (firstn 1 ops) i = handler_of ops i) /\ handler_of ops (mp_msgid mf) = Some 9 /\ calls_for mf (effects tr) = [].
Proof. exact never_delivered. Qed.
Print Assumptions C43_lost_refuted.
(** ... and may be handed over twice. *)
Theorem C43_twice_refuted : exists o ops tr mf, runs o [] ops tr /\ opt_auto o = true /\ numbers (packets mf ops) = [2; 1; 3; 3] /\ mp_sum mf = 3 /\ length (calls_for mf (effects tr)) = 2%nat.
Proof. exact delivered_twice. Qed.
Print Assumptions C43_twice_refuted.
(** If the packets arrive once each, in any order, mixed with anything else, and
    the upload has no leftovers, then the handler is called exactly once with the
    whole data if the last packet arrives last, and never otherwise. *)
Theorem C43_upload_partial o prior ops tr mf a id now m b sq data : runs o prior ops tr -> opt_auto o = true -> Forall (foreign mf) prior -> mpf_ok mf ->
  Permutation (numbers (packets mf ops)) (upto (mp_sum mf)) ->
  (forall i t x mf' s d, In (ODeliver i t x) ops -> part_of true x = Some (mf', s, d) -> same_upload mf' mf = true -> mf' = mf) ->
  ops = a ++ ODeliver id now m :: b -> part_of true m = Some (mf, sq, data) -> packets mf b = [] ->
  calls_for mf (effects tr) =
    if sq =? mp_sum mf then match handler_of a (h_id (m_hdr m)) with Some h => [SvHandle id h (with_data m (concat (map (data_with (packets mf ops)) (upto (mp_sum mf)))))] | None => [] end
    else [].
Proof. exact (upload o prior ops tr mf a id now m b sq data). Qed.
Print Assumptions C43_upload_partial.
Example C43_case : runs (opts true) [] in_order (trace_of true in_order) /\ mpf_ok film /\ numbers (packets film in_order) = [2; 1; 3] /\
  calls_for film (effects (trace_of true in_order)) = [SvHandle 2 9 (packet 138 4 7 3 3 [1; 2; 3; 4; 5])].
Proof. split; [apply trace_runs, in_order_ok|]. split; [repeat constructor; vm_compute; congruence|]. split; [vm_compute; reflexivity|vm_compute; reflexivity]. Qed.
(** C87. In general: a packet passes on its upload exactly when it has the last
    number and all other parts are on disk, also from earlier uploads. *)
Theorem C87_packet o prior ops tr pre id now m evs post : runs o prior ops tr -> tr = pre ++ (ODeliver id now m, evs) :: post ->
  let up := hi_up (history (opt_auto o) prior (ops_of pre)) in
  (passes (opt_auto o) up m = false -> handled evs = []) /\
  (passes (opt_auto o) up m = true -> exists m', m_hdr m' = m_hdr m /\ (part_of (opt_auto o) m = None -> m' = m) /\
     (forall mf sq data, part_of (opt_auto o) m = Some (mf, sq, data) -> exists c, merged (up ++ [MWrite mf sq data]) mf c /\ m' = with_data m c) /\
     handled evs = match handler_of (ops_of pre) (h_id (m_hdr m)) with Some h => [SvHandle id h m'] | None => [] end).
Proof. exact (packet_step o prior ops tr pre id now m evs post). Qed.
Print Assumptions C87_packet.
Example C87_case : exists pre evs post, trace_of true repeated = pre ++ (ODeliver 1 4 (packet 138 4 7 3 3 [5]), evs) :: post /\ passes true (hi_up (history true [] (ops_of pre))) (packet 138 4 7 3 3 [5]) = true.
Proof. at_step 9%nat. vm_compute; reflexivity. Qed.

(** C45. A session that was closed can stay in the registry forever. *)
Theorem C45_registry_refuted : exists o sv ops sv' tr id, starts o [] sv /\ legal ops /\ sv_run sv ops = Ok (sv', tr) /\
  is_shut tr id = true /\ In (OAddCb id) ops /\ In (ORunClose id) ops /\ get_session sv' id = true /\ closings id (effects tr) = O /\
  forall more sv2 tr2, legal (ops ++ more) -> sv_run sv (ops ++ more) = Ok (sv2, tr2) -> get_session sv2 id = true /\ closings id (effects tr2) = O.
Proof. exact never_forgotten. Qed.
Print Assumptions C45_registry_refuted.
(** Broadcast attempts every registered session once and returns the number of messages sent. *)
Theorem C45_broadcast_partial o prior ops tr pre e evs post : runs o prior ops tr -> tr = pre ++ (OBroadcast e, evs) :: post ->
  exists ids blocks, NoDup ids /\ (forall id, In id ids <-> registered pre id = true) /\
    Forall2 (fun id b => sending (opt_auto o) prior pre id e b) ids blocks /\ evs = concat blocks ++ [SvCount (zlen (sends (concat blocks)))].
Proof. exact (broadcast_exact o prior ops tr pre e evs post). Qed.
Print Assumptions C45_broadcast_partial.
Example C45_case : exists pre evs post, trace_of false traffic = pre ++ (OBroadcast E8201, evs) :: post /\ registered pre 1 = true /\ registered pre 2 = true /\ is_shut pre 2 = true /\ last evs (SvShut 0) = SvCount 1.
Proof. at_step 12%nat. split; [vm_compute; reflexivity|]. split; [vm_compute; reflexivity|]. split; [vm_compute; reflexivity|vm_compute; reflexivity]. Qed.
(** C84. The registry holds exactly the sessions accepted whose close callback has not run. *)
Theorem C84_registry o prior sv ops sv' tr id : starts o prior sv -> legal ops -> sv_run sv ops = Ok (sv', tr) -> get_session sv' id = registered tr id.
Proof. exact (registry o prior sv ops sv' tr id). Qed.
Print Assumptions C84_registry.
Example C84_case : legal traffic /\ get_session (final false (firstn 13 traffic)) 2 = true /\ get_session (final false traffic) 2 = false /\ get_session (final false traffic) 3 = false.
Proof. split; [exact traffic_ok|]. split; [vm_compute; reflexivity|]. split; [vm_compute; reflexivity|vm_compute; reflexivity]. Qed.

(** C46. See C45: closing before the close callback is registered is never noticed.
    A message still handled after the close callback leaves an entry in the timer. *)
Theorem C46_forgotten_refuted : exists o sv ops sv' tr id, starts o [] sv /\ legal ops /\ sv_run sv ops = Ok (sv', tr) /\
  is_shut tr id = true /\ In (OAddCb id) ops /\ In (ORunClose id) ops /\ get_session sv' id = true /\ closings id (effects tr) = O /\
  forall more sv2 tr2, legal (ops ++ more) -> sv_run sv (ops ++ more) = Ok (sv2, tr2) -> get_session sv2 id = true /\ closings id (effects tr2) = O.
Proof. exact never_forgotten. Qed.
Print Assumptions C46_forgotten_refuted.
Theorem C46_timer_refuted : exists o sv ops sv' tr id, starts o [] sv /\ legal ops /\ sv_run sv ops = Ok (sv', tr) /\ is_gone tr id = true /\ map_get (tm_map (sv_timer sv')) id <> None.
Proof. exact timer_leftover. Qed.
Print Assumptions C46_timer_refuted.
(** C86. The close handler of a session runs at most once, ... *)
Theorem C86_once o prior ops tr id : runs o prior ops tr -> (closings id (effects tr) <= 1)%nat.
Proof. exact (closed_at_most_once o prior ops tr id). Qed.
Print Assumptions C86_once.
(** ... exactly if the session is closed after its callback was registered, ... *)
Theorem C86_runs o prior ops tr pre id evs post : runs o prior ops tr -> tr = pre ++ (ORunClose id, evs) :: post ->
  (hooked pre id -> is_shut pre id = true -> is_gone pre id = false -> evs = [SvClosed id]) /\ (evs <> [] -> evs = [SvClosed id] /\ hooked pre id /\ is_shut pre id = true /\ is_gone pre id = false).
Proof. exact (close_runs o prior ops tr pre id evs post). Qed.
Print Assumptions C86_runs.
(** ... and the session is then gone from the registry for good, and from the timer unless one of its messages is still handled. *)
Theorem C86_forgotten o prior sv ops sv' tr a id b : starts o prior sv -> legal ops -> sv_run sv ops = Ok (sv', tr) -> tr = a ++ (ORunClose id, [SvClosed id]) :: b ->
  get_session sv' id = false /\ ((forall t m, ~ In (ODeliver id t m) (ops_of b)) -> map_get (tm_map (sv_timer sv')) id = None).
Proof. exact (forgotten o prior sv ops sv' tr a id b). Qed.
Print Assumptions C86_forgotten.
Example C86_case : exists pre evs post, trace_of false traffic = pre ++ (ORunClose 2, evs) :: post /\ evs = [SvClosed 2] /\ (exists e, In (OAddCb 2, e) pre) /\ is_shut pre 2 = true.
Proof. at_step 13%nat. split; [vm_compute; reflexivity|]. split; [exists []; vm_compute; tauto|vm_compute; reflexivity]. Qed.

(** C51. The answer to a first message that cannot be read is addressed to terminal 0. *)
Theorem C51_addressed_refuted : exists o ops tr a id u m es c x, runs o [] ops tr /\ tr = a ++ (ODeliver id u m, es) :: c /\ In (SvSend id x) es /\ h_icc (m_hdr m) = 138 /\ h_icc (m_hdr x) = 0.
Proof. exact wrong_terminal. Qed.
Print Assumptions C51_addressed_refuted.
(** What is sent after a message that is passed on, and before or on the next message of that session, carries its terminal number. *)
Theorem C51_addressed_partial o prior ops tr a id u m es b op evs c x : runs o prior ops tr -> tr = a ++ (ODeliver id u m, es) :: b ++ (op, evs) :: c ->
  passes (opt_auto o) (hi_up (history (opt_auto o) prior (ops_of a))) m = true -> (forall t y, ~ In (ODeliver id t y) (ops_of b)) ->
  In (SvSend id x) evs -> h_icc (m_hdr x) = h_icc (m_hdr m).
Proof. exact (addressed o prior ops tr a id u m es b op evs c x). Qed.
Print Assumptions C51_addressed_partial.
(** C88. Every message sent carries the terminal number its session was told last,
    the next serial number of its session and the ID of its body, and none is
    sent on a session that is shut. *)
Theorem C88_sent o prior ops tr pre op evs post id m : runs o prior ops tr -> tr = pre ++ (op, evs) :: post -> In (SvSend id m) evs ->
  is_shut pre id = false /\ h_icc (m_hdr m) = hi_icc (history (opt_auto o) prior (ops_of pre)) id /\ h_serial (m_hdr m) = serial (sent_on pre id) /\ exists e, m_body m = BEnt e /\ h_id (m_hdr m) = entity_id e.
Proof. exact (sent_exact o prior ops tr pre op evs post id m). Qed.
Print Assumptions C88_sent.
Example C88_case : exists pre evs post, trace_of false traffic = pre ++ (OBroadcast E8201, evs) :: post /\ sends evs = [(1, Message (Header 0x8201 0 138 1 None) (BEnt E8201))] /\
  hi_icc (history false [] (ops_of pre)) 1 = 138 /\ sent_on pre 1 = O /\ serial 0 = 1.
Proof. at_step 12%nat. split; [vm_compute; reflexivity|]. split; [vm_compute; reflexivity|]. split; [vm_compute; reflexivity|vm_compute; reflexivity]. Qed.

(** C52. Keys that are not 1024 bits long can be accepted. *)
Theorem C52_key_refuted : exists f o sv bits, opt_key o = Some bits /\ bits <> 1024 /\ new_server f o = Ok sv.
Proof. exact short_key. Qed.
Print Assumptions C52_key_refuted.
Theorem C52_keepalive_partial f o sv : new_server f o = Ok sv -> tm_seconds (sv_timer sv) = if 0 <? opt_keepalive o then opt_keepalive o else 60.
Proof. exact (options_keepalive f o sv). Qed.
Print Assumptions C52_keepalive_partial.
(** C89. Exactly the keys of 1017 to 1024 bits are. *)
Theorem C89_key f o : (exists sv, new_server f o = Ok sv) <-> (forall bits, opt_key o = Some bits -> 1017 <= bits <= 1024).
Proof. exact (options_exact f o). Qed.
Print Assumptions C89_key.
Example C89_case : new_server empty_fs (Options (-3) true (Some 1016)) = Err ErrKey /\ exists sv, new_server empty_fs (Options (-3) true (Some 1024)) = Ok sv /\ tm_seconds (sv_timer sv) = 60.
Proof. split; [reflexivity|]. eexists. split; [reflexivity|reflexivity]. Qed.

(** C90. Every message decoded from bytes is as [legal] histories require. *)
Theorem C90_received env key data m : key_ok env key -> bytes_ok data -> msg_decode env key data = Ok m -> received m.
Proof. exact (decode_received env key data m). Qed.
Print Assumptions C90_received.
Example C90_case : exists m, msg_decode demo_env None [126; 15; 255; 0; 2; 1; 56; 0; 19; 128; 0; 0; 7; 9; 9; 95; 126] = Ok m.
Proof. eexists. vm_compute. reflexivity. Qed.

(** C91. The callback of a request runs at most once, and only if it was asked for. *)
Theorem C91_callback_once o prior ops tr tok : runs o prior ops tr -> (answers_to tok (effects tr) <= 1)%nat /\ (~ In tok (asked ops) -> answers_to tok (effects tr) = O).
Proof. exact (answered_once o prior ops tr tok). Qed.
Print Assumptions C91_callback_once.
Example C91_case : runs (opts false) [] traffic (trace_of false traffic) /\ answers_to 77 (effects (trace_of false traffic)) = 1%nat /\ asked traffic = [77].
Proof. split; [apply trace_runs, traffic_ok|]. split; [vm_compute; reflexivity|reflexivity]. Qed.

(** C92. A process that may not enter directories of mode 0644 refuses every
    packet of every upload: the directories it makes have that mode. *)
Theorem C92_unprivileged f o sv ops sv' tr pre id now m part evs post : fs_priv f = false -> opt_auto o = true -> new_server f o = Ok sv -> sv_run sv ops = Ok (sv', tr) -> tr = pre ++ (ODeliver id now m, evs) :: post ->
  received m -> part_of true m = Some part -> evs = [] \/ evs = [SvShut id] \/ exists h, evs = [SvSend id (Message h (BEnt (response m 1)))].
Proof. exact (refused f o sv ops sv' tr pre id now m part evs post). Qed.
Print Assumptions C92_unprivileged.
Example C92_case : exists sv sv' tr, new_server (Fs false []) (opts true) = Ok sv /\ sv_run sv in_order = Ok (sv', tr) /\ handled (effects tr) = [] /\ length (sends (effects tr)) = 4%nat.
Proof. do 3 eexists. split; [reflexivity|]. split; [vm_compute; reflexivity|]. split; [vm_compute; reflexivity|vm_compute; reflexivity]. Qed.
