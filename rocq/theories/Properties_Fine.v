(** Properties C113-C124: the goroutines of a server, interleaved in any way. *)
From Coq Require Import Permutation.
From Verif Require Import Base Env EntTerm EntPlat Registry Message Timer Session Server Fine.
From Verif Require Import SpecSession SpecTimer SpecServer SpecFine ProofFine6 ProofFine10 ProofFine11 ProofFine13 DemoServer DemoFine.

(** C113. No interleaving crashes: every history of steps of goroutines runs to its end. *)
Theorem C113_total merging ka ops : fine_received ops -> exists st evs, frun (fine_init merging ka) ops = Ok (st, evs).
Proof. exact (fine_total merging ka ops). Qed.
Print Assumptions C113_total.
(** Two terminals, 53 steps *)
Example C113_case : fine_received busy_day /\ length busy_day = 53%nat /\ length busy_events = 56%nat.
Proof. split; [exact busy_day_ok|]. split; vm_compute; reflexivity. Qed.

(** C114. Whenever a goroutine looks a session up, be it the timer, it finds it if and only if the session was accepted and its
    close callback has not taken it out yet; an ID is used once; the close callback takes its steps in order and once. *)
Theorem C114_look merging ka evs a id f b : happens merging ka evs -> evs = a ++ XLook id f :: b \/ evs = a ++ XGet id f :: b -> f = here a id.
Proof. exact (fun H E => match E with or_introl E => look_here merging ka evs H a id f b E | or_intror E => get_here merging ka evs H a id f b E end). Qed.
Print Assumptions C114_look.
Theorem C114_connect merging ka evs a id b : happens merging ka evs -> evs = a ++ XConnect id :: b -> ~ In (XConnect id) (a ++ b).
Proof. exact (fun H => connect_once merging ka evs H a id b). Qed.
Print Assumptions C114_connect.
(** The close callback is registered unless the session is closed already; ... *)
Theorem C114_callback merging ka evs a id ok b : happens merging ka evs -> evs = a ++ XAddCb id ok :: b -> (ok = true <-> ~ In (XShut id) a) /\ ~ In (XAddCb id true) a.
Proof. exact (fun H => callback_added merging ka evs H a id ok b). Qed.
Print Assumptions C114_callback.
(** ... it runs once, for a closed session, and its parts happen in order: registry, timer, close handler. *)
Theorem C114_gone merging ka evs a id b : happens merging ka evs -> evs = a ++ XGone id :: b -> In (XConnect id) a /\ In (XShut id) a /\ In (XAddCb id true) a /\ ~ In (XGone id) a.
Proof. exact (fun H => gone_order merging ka evs H a id b). Qed.
Print Assumptions C114_gone.
Theorem C114_remove merging ka evs a id b : happens merging ka evs -> evs = a ++ XRemove id :: b -> In (XGone id) a /\ ~ In (XRemove id) a.
Proof. exact (fun H => remove_order merging ka evs H a id b). Qed.
Print Assumptions C114_remove.
Theorem C114_closed merging ka evs a id b : happens merging ka evs -> evs = a ++ XClosed id :: b -> In (XRemove id) a /\ ~ In (XClosed id) a.
Proof. exact (fun H => closed_order merging ka evs H a id b). Qed.
Print Assumptions C114_closed.
(** Session 2 is found by the timer, not any more after its close callback; session 1 is closed and still found. *)
Example C114_case : happens false 60 busy_events /\ nth 41 busy_events (XShut 0) = XGet 2 true /\ nth 48 busy_events (XShut 0) = XLook 2 false /\ nth 55 busy_events (XShut 0) = XLook 1 true /\
  here (firstn 41 busy_events) 2 = true /\ here (firstn 48 busy_events) 2 = false /\ In (XShut 1) (firstn 55 busy_events) /\ nth 50 busy_events (XShut 0) = XClosed 2.
Proof. split; [exact busy_happens|]. do 5 (split; [vm_compute; reflexivity|]). split; [vm_compute; auto 60|vm_compute; reflexivity]. Qed.

(** C115. Link takes a message only for an accepted session that is not closed; a session that the timer or its own
    goroutine closes, or whose message is refused, is closed. *)
Theorem C115_open merging ka evs a id tok m b : happens merging ka evs -> evs = a ++ XWire id tok (Some m) :: b -> In (XConnect id) a /\ ~ In (XShut id) a.
Proof. exact (fun H => accepted_open merging ka evs H a id tok m b). Qed.
Print Assumptions C115_open.
Theorem C115_shut merging ka evs id ev : happens merging ka evs -> In ev evs -> ev = XTimeout id \/ ev = XFail id \/ (exists tok, ev = XWire id tok None) -> In (XShut id) evs.
Proof. exact (fun H => shut_by merging ka evs H id ev). Qed.
Print Assumptions C115_shut.
(** A message is sent to session 2 before it is closed; a queue that is full closes session 1. *)
Example C115_case : happens false 60 busy_events /\ In (XTimeout 2) busy_events /\ In (XShut 2) busy_events /\
  happens false 60 full_events /\ In (XWire 1 0 None) full_events /\ nth 6 full_events (XConnect 0) = XWire 1 0 None /\ nth 7 full_events (XConnect 0) = XShut 1.
Proof. split; [exact busy_happens|]. split; [vm_compute; auto 60|]. split; [vm_compute; auto 60|]. split; [exact full_happens|]. split; [vm_compute; auto 60|]. split; vm_compute; reflexivity. Qed.

(** C116. Also when Updates, the close callback and the check overlap: a check hands over exactly the sessions whose deadline
    has passed, in the order of the deadlines; ... *)
Theorem C116_check merging ka evs a now keys b : happens merging ka evs -> evs = a ++ XTick now keys :: b -> fires (due ka a) now keys.
Proof. exact (fun H => check_exact merging ka evs H a now keys b). Qed.
Print Assumptions C116_check.
(** ... and a deadline is that of the last completed Update of the session, after which no other one and no Remove got as far
    as the timer. *)
Theorem C116_deadline merging ka evs a b id d : happens merging ka evs -> evs = a ++ b -> due ka a id = Some d ->
  exists u a0 a3, a = a0 ++ a3 /\ refreshes id u a0 /\ d = wrapped u ka /\ (forall ev, In ev a3 -> ev <> XDel id /\ ev <> XIns id /\ ev <> XRemove id).
Proof. exact (fun H => due_when merging ka evs H a b id d). Qed.
Print Assumptions C116_deadline.
(** The check at 65 finds session 2 (refreshed at 3) and not session 1 (refreshed at 10 by its handler). *)
Example C116_case : happens false 60 busy_events /\ nth 39 busy_events (XShut 0) = XTick 65 [2] /\ due 60 (firstn 39 busy_events) 1 = Some 70 /\ due 60 (firstn 39 busy_events) 2 = Some 63.
Proof. split; [exact busy_happens|]. split; [vm_compute; reflexivity|]. split; vm_compute; reflexivity. Qed.

(** C117. The goroutine of the timer calls back with the keys of one check after the other, in order; ... *)
Theorem C117_order merging ka evs : happens merging ka evs -> exists more groups, filter of_timer evs ++ more = flat_map a_check groups.
Proof. exact (timer_order merging ka evs). Qed.
Print Assumptions C117_order.
(** ... it closes only sessions whose last Update completed before the check was at least the keepalive before it. *)
Theorem C117_timeout merging ka evs a id b : happens merging ka evs -> evs = a ++ XTimeout id :: b ->
  exists u a0 a3 now keys a2, a = (a0 ++ a3) ++ XTick now keys :: a2 /\ forallb (fun ev => negb (is_tick ev)) a2 = true /\ In id keys /\
    refreshes id u a0 /\ (forall ev, In ev a3 -> ev <> XDel id /\ ev <> XIns id /\ ev <> XRemove id) /\ wrapped u ka <= now.
Proof. exact (fun H => timeout_why merging ka evs H a id b). Qed.
Print Assumptions C117_timeout.
Example C117_case : happens false 60 busy_events /\ nth 44 busy_events (XShut 0) = XTimeout 2 /\
  filter of_timer busy_events = flat_map a_check [(65, [(2, true)])] ++ [XTick 99 [1]; XGet 1 true].
Proof. split; [exact busy_happens|]. split; vm_compute; reflexivity. Qed.

(** C118. A session whose Update has completed is not closed by the timer before its new deadline: refuted, the check and the
    Close are apart. *)
Theorem C118_race_refuted : exists evs a1 a2 b id u now, happens false 60 evs /\ evs = (a1 ++ a2) ++ XTimeout id :: b /\ refreshes id u a1 /\
  (forall ev, In ev a2 -> ev <> XDel id /\ ev <> XIns id /\ ev <> XRemove id) /\ In (XTick now [id]) a1 /\ (forall t ks, In (XTick t ks) evs -> t = now) /\ now < wrapped u 60.
Proof. exact race_refuted. Qed.
Print Assumptions C118_race_refuted.

(** C119. The goroutine of a session: registration, then one message after the other, each as [turn] says; what another goroutine
    does cannot get in between the order of its own steps. *)
Theorem C119_order merging ka evs id : happens merging ka evs -> filter (own id) evs = [] \/
  exists more u ok turns tail, filter (own id) evs ++ more = opening id u ok ++ concat turns ++ tail /\ Forall (turn merging id) turns /\ (tail = [] \/ tail = [XFail id] /\ more = []).
Proof. exact (fun H => session_order merging ka evs H id). Qed.
Print Assumptions C119_order.
(** The handler is the one registered last at the moment of the lookup. *)
Theorem C119_handler merging ka evs a id m h b : happens merging ka evs -> evs = a ++ XLoad id m h :: b -> h = handler_now a (h_id (m_hdr m)).
Proof. exact (fun H => load_now merging ka evs H a id m h b). Qed.
Print Assumptions C119_handler.
(** Reply returns when link has taken or refused the answer. *)
Theorem C119_replied merging ka evs a id tok b : happens merging ka evs -> evs = a ++ XReplied id tok :: b -> exists a' r, a = a' ++ [XWire id tok r] \/ a = a' ++ [XWire id tok r; XShut id].
Proof. exact (fun H => replied_after merging ka evs H a id tok b). Qed.
Print Assumptions C119_replied.
(** Session 1 handles a heartbeat and answers a strange message, among others; two packets of an upload *)
Example C119_case : happens false 60 busy_events /\ happens true 60 merging_events /\
  filter (own 1) busy_events = opening 1 0 true ++ concat
    [[XRecv 1 (beat 138 1); XIcc 1 (beat 138 1); XTake 1 (beat 138 1) None; XLoad 1 (beat 138 1) (Some 5); XClock 1 10; XDel 1; XIns 1; XHandle 1 5 (beat 138 1); XReturn 1];
     [XRecv 1 (strange 138 2); XReply 1 4 (response (strange 138 2) 3); XReplied 1 4]] ++ [XFail 1] /\
  length (filter (own 1) merging_events) = 24%nat.
Proof. split; [exact busy_happens|]. split; [exact merging_happens|]. split; vm_compute; reflexivity. Qed.

(** C120. Calls of Send, Reply and Request by any number of goroutines: each draws one serial number of its session, in the order
    of the draws 1, 2, ..., 255, 1, ..., and hands link one message, with its body, that number and the terminal number its
    session had been told last when the call began. *)
Theorem C120_names merging ka evs : happens merging ka evs -> NoDup (names evs).
Proof. exact (names_new merging ka evs). Qed.
Print Assumptions C120_names.
Theorem C120_number merging ka evs a id tok n b : happens merging ka evs -> evs = a ++ XNext id tok n :: b ->
  (exists cb e, In (id, tok, cb, e) (flat_map begun a)) /\ (forall k, ~ In (XNext id tok k) a) /\ n = serial (length (numbered id a)).
Proof. exact (fun H => next_number merging ka evs H a id tok n b). Qed.
Print Assumptions C120_number.
Theorem C120_message merging ka evs a id tok r b : happens merging ka evs -> evs = a ++ XWire id tok r :: b -> (forall r', ~ In (XWire id tok r') a) /\
  exists a1 ev b1 cb e n, a = a1 ++ ev :: b1 /\ begun ev = [(id, tok, cb, e)] /\ In (XNext id tok n) a /\
    (r = None \/ r = Some (Message (Header (entity_id e) 0 (told_last id a1) n None) (BEnt e))).
Proof. exact (fun H => wire_message merging ka evs H a id tok r b). Qed.
Print Assumptions C120_message.
(** Session 2: the Request and the Broadcast began before it was told its number, session 1: after it. *)
Example C120_case : happens false 60 busy_events /\ numbered 2 busy_events = [1; 2] /\ numbered 1 busy_events = [1; 2] /\ names busy_events = [1; 2; 3; 4] /\
  nth 32 busy_events (XShut 0) = XWire 2 3 (Some (Message (Header 0x8201 0 0 2 None) (BEnt E8201))) /\ nth 18 busy_events (XShut 0) = XWire 1 1 (Some (Message (Header 0x8201 0 138 1 None) (BEnt E8201))).
Proof. split; [exact busy_happens|]. do 4 (split; [vm_compute; reflexivity|]). vm_compute; reflexivity. Qed.

(** C121. Requests: a request waits from the moment its message has been handed to link until its callback runs or another request
    with the same message ID takes its place; a message runs the callback of a waiting request whose number it quotes, if there is one; a callback
    runs once. *)
Theorem C121_waits merging ka evs a id tok b : happens merging ka evs -> evs = a ++ XAdd id tok :: b ->
  ~ In (XAdd id tok) a /\ exists e m, In (id, tok, true, e) (flat_map begun a) /\ In (XWire id tok (Some m)) a.
Proof. exact (fun H => add_after merging ka evs H a id tok b). Qed.
Print Assumptions C121_waits.
Theorem C121_answer merging ka evs a id m tok b : happens merging ka evs -> evs = a ++ XTake id m (Some tok) :: b -> (forall m', ~ In (XTake id m' (Some tok)) a) /\
  exists r m0, In r (pending id a) /\ rq_tok r = tok /\ answers m (rq_serial r) /\ In (XWire id tok (Some m0)) a /\ h_serial (m_hdr m0) = rq_serial r.
Proof. exact (fun H => take_some merging ka evs H a id m tok b). Qed.
Print Assumptions C121_answer.
Theorem C121_nothing merging ka evs a id m b : happens merging ka evs -> evs = a ++ XTake id m None :: b -> forall r, In r (pending id a) -> ~ answers m (rq_serial r).
Proof. exact (fun H => take_none merging ka evs H a id m b). Qed.
Print Assumptions C121_nothing.
Example C121_case : happens false 60 busy_events /\ nth 24 busy_events (XShut 0) = XAdd 2 2 /\ pending 2 (firstn 25 busy_events) = [Request 0x8104 1 2] /\
  nth 30 busy_events (XShut 0) = XTake 2 (ack 139 1 1) (Some 2) /\ pending 2 (firstn 31 busy_events) = [] /\ nth 16 busy_events (XShut 0) = XTake 1 (beat 138 1) None.
Proof. split; [exact busy_happens|]. do 4 (split; [vm_compute; reflexivity|]). vm_compute; reflexivity. Qed.

(** C122. Broadcast, while sessions come and go: it calls Send once for each of the sessions that were registered when it took its
    snapshot, one after the other, and returns how many link took. *)
Theorem C122_snapshot merging ka evs a k e ids b : happens merging ka evs -> evs = a ++ XCast k e ids :: b ->
  NoDup ids /\ (forall id, In id ids <-> here a id = true) /\ (forall e' ids', ~ In (XCast k e' ids') a).
Proof. exact (fun H => cast_snapshot merging ka evs H a k e ids b). Qed.
Print Assumptions C122_snapshot.
Theorem C122_each merging ka evs a k id tok e b : happens merging ka evs -> evs = a ++ XCastTo k id tok e :: b -> (exists ids, In (XCast k e ids) a /\ In id ids) /\
  (forall t e', ~ In (XCastTo k id t e') a) /\ (forall n, ~ In (XCount k n) a) /\ (forall i t e', In (XCastTo k i t e') a -> exists r, In (XWire i t r) a).
Proof. exact (fun H => cast_to merging ka evs H a k id tok e b). Qed.
Print Assumptions C122_each.
Theorem C122_count merging ka evs a k n b : happens merging ka evs -> evs = a ++ XCount k n :: b -> (forall j, ~ In (XCount k j) a) /\
  exists e ids, In (XCast k e ids) a /\ Permutation (map (fun x => fst (fst x)) (cast_calls k a)) ids /\
    (forall id tok e', In (id, tok, e') (cast_calls k a) -> e' = e /\ exists r, In (XWire id tok r) a) /\
    n = Z.of_nat (length (filter (fun x => taken_by_link a (snd (fst x))) (cast_calls k a))).
Proof. exact (fun H => cast_count merging ka evs H a k n b). Qed.
Print Assumptions C122_count.
(** Both sessions are sent 0x8201. *)
Example C122_case : happens false 60 busy_events /\ nth 11 busy_events (XShut 0) = XCast 0 E8201 [2; 1] /\ nth 33 busy_events (XShut 0) = XCount 0 2 /\
  cast_calls 0 (firstn 33 busy_events) = [(1, 1, E8201); (2, 3, E8201)].
Proof. split; [exact busy_happens|]. do 2 (split; [vm_compute; reflexivity|]). vm_compute; reflexivity. Qed.

(** C123. An answer is addressed to the terminal whose message it answers: refuted, the answers to packets of an upload and to messages that
    cannot be read leave without the session being told the number of the terminal. *)
Theorem C123_answer_refuted : exists evs a id m tok e c m', happens true 60 evs /\ received m /\ e = response m 0 /\
  evs = a ++ XRecv id m :: XStored id true :: XReply id tok e :: c /\ In (XWire id tok (Some m')) evs /\ h_icc (m_hdr m') = 0 /\ h_icc (m_hdr m) = 138.
Proof. exact answer_refuted. Qed.
Print Assumptions C123_answer_refuted.

(** C124. Left to themselves, the goroutines come to rest, whatever the schedule: there is a bound on what can still happen; ... *)
Theorem C124_ends merging ka ops st evs : fine_received ops -> frun (fine_init merging ka) ops = Ok (st, evs) ->
  exists n, forall more st' evs', forallb by_itself more = true -> frun st more = Ok (st', evs') -> (length evs' <= n)%nat.
Proof. exact (ends merging ka ops st evs). Qed.
Print Assumptions C124_ends.
(** ... when no goroutine can move any more, everything is done: no call, Broadcast, callback of the timer, message or close callback is stuck; ... *)
Theorem C124_rest merging ka ops st evs : fine_received ops -> frun (fine_init merging ka) ops = Ok (st, evs) ->
  (forall op, by_itself op = true -> exists st', fstep st op = Ok (st', [])) -> settled merging evs.
Proof. exact (settles merging ka ops st evs). Qed.
Print Assumptions C124_rest.
(** ... and this can be reached from everywhere. *)
Theorem C124_reached merging ka ops st evs : fine_received ops -> frun (fine_init merging ka) ops = Ok (st, evs) ->
  exists more st' evs', forallb by_itself more = true /\ frun st more = Ok (st', evs') /\ settled merging (evs ++ evs').
Proof. exact (can_settle merging ka ops st evs). Qed.
Print Assumptions C124_reached.
(** At the end of the day session 1 is closed and not yet forgotten; after a shorter one nothing moves. *)
Example C124_case : fine_received busy_day /\ ~ settled false busy_events /\ fine_received short_day /\ frun (fine_init false 60) short_day = Ok (over, over_events) /\
  (forall op, by_itself op = true -> exists st', fstep over op = Ok (st', [])) /\ In (XAdd 1 0) over_events /\ In (XClosed 1) over_events.
Proof.
  split; [exact busy_day_ok|]. split; [|split; [exact over_ok|split; [exact over_run|split; [exact over_rest|split; vm_compute; auto 60]]]].
  intro S. cut (true = false); [discriminate|]. assert (I : In (XClosed 1) busy_events) by (apply (se_closed _ _ S); vm_compute; auto 60).
  assert (E : existsb (fun ev => match ev with XClosed 1 => true | _ => false end) busy_events = false) by (vm_compute; reflexivity).
  rewrite <- E. symmetry. apply existsb_exists. exists (XClosed 1). split; [exact I|reflexivity].
Qed.
