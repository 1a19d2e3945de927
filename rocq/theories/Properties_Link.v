(** C187-C189. Sessions of link, statement by statement: any number of goroutines that send, close and add callbacks. *)
From Verif Require Import Base Link SpecLink DemoLink ProofLink ProofLink2.

(** Nobody sends on a closed channel or closes one twice, whatever the interleaving. *)
Theorem C187_no_panic cap os : exists s tr, lrun cap fresh_link os = Ok (s, tr).
Proof. exact (no_panic cap os). Qed.
Print Assumptions C187_no_panic.
(** Messages are taken and written in the order in which they were accepted, each at most once; at most [cap] wait. *)
Theorem C187_order cap os s tr : lrun cap fresh_link os = Ok (s, tr) ->
  exists waiting pending, puts tr = tooks tr ++ waiting /\ (length waiting <= cap)%nat /\ tooks tr = wrotes tr ++ pending /\ (length pending <= 1)%nat.
Proof. exact (in_order cap os s tr). Qed.
Print Assumptions C187_order.
(** What a call has done when it has returned: Send returned nil and its message was accepted once, or an error and it was not; Close returned nil and
    it was the one that closed, or an error and it was not; a callback was added once or not at all. *)
Theorem C187_calls cap os s tr i c r : lrun cap fresh_link os = Ok (s, tr) -> In (Called i c) tr -> In (Returned i r) tr -> ended i c (mine i tr).
Proof. exact (calls_end cap os s tr i c r). Qed.
Print Assumptions C187_calls.
(** Only messages that were sent are accepted, each by its own Send. *)
Theorem C187_sent cap os s tr i m : lrun cap fresh_link os = Ok (s, tr) -> In (Put i m) tr ->
  mine i tr = [Called i (CallSend m); Put i m] \/ mine i tr = [Called i (CallSend m); Put i m; Returned i RNil].
Proof. exact (put_by_send cap os s tr i m). Qed.
Print Assumptions C187_sent.
(** An error is returned only if somebody closed the session. *)
Theorem C187_errors cap os s tr i r : lrun cap fresh_link os = Ok (s, tr) -> In (Returned i r) tr -> r <> RNil -> exists j, In (Won j) tr.
Proof. exact (errors_closed cap os s tr i r). Qed.
Print Assumptions C187_errors.
(** After the closing began no call that begins is accepted, be it a message or a callback. *)
Theorem C187_closed cap os s a j b i c : lrun cap fresh_link os = Ok (s, a ++ Won j :: b) -> In (Called i c) b ->
  forall x, ~ In (Put i x) (a ++ Won j :: b) /\ ~ In (Added i x) (a ++ Won j :: b).
Proof. exact (closed_refuses cap os s a j b i c). Qed.
Print Assumptions C187_closed.
(** One goroutine closes, then the codec is closed, then the callbacks are invoked; each of this happens once. *)
Theorem C187_once cap os s tr : lrun cap fresh_link os = Ok (s, tr) -> exists j rest, milestones tr ++ rest = [Won j; CodecClosed; Invoked].
Proof. exact (milestones_once cap os s tr). Qed.
Print Assumptions C187_once.
(** The callbacks added before the invocation are called in their order, each at most once, and no others. *)
Theorem C187_callbacks cap os s tr : lrun cap fresh_link os = Ok (s, tr) ->
  (~ In Invoked tr -> rans tr = []) /\ (In Invoked tr -> exists a b rest, tr = a ++ Invoked :: b /\ addeds a = rans tr ++ rest).
Proof. exact (callbacks_run cap os s tr). Qed.
Print Assumptions C187_callbacks.
(** Nobody adds a callback between the beginning of the invocation and the call of the last one. *)
Theorem C187_apart cap os s a i f b : lrun cap fresh_link os = Ok (s, a ++ Added i f :: b) -> In Invoked a ->
  exists a1 a2, a = a1 ++ Invoked :: a2 /\ rans a = addeds a1.
Proof. exact (callbacks_apart cap os s a i f b). Qed.
Print Assumptions C187_apart.
(** A queue of two that overflows; a message put after the closing began; a callback added too late. *)
Example C187_case :
  seen_link demo_close = [Called 1 (CallAdd 7); Added 1 7; Returned 1 RNil; Called 2 (CallSend 10); Put 2 10; Returned 2 RNil;
    Called 3 (CallSend 11); Put 3 11; Returned 3 RNil; Called 4 (CallSend 12); Won 4; CodecClosed; Returned 4 RBlocked; Invoked; Ran 7; Returned 5 RNil;
    Took 10; Wrote 10; Returned 0 RClosed; Called 6 (CallSend 13); Returned 6 RClosed; Called 7 (CallAdd 8); Returned 7 RNil; Called 8 CallClose; Returned 8 RClosed]
  /\ seen_link demo_overlap = [Called 1 (CallSend 10); Called 2 CallClose; Won 2; Put 1 10; Returned 1 RNil; CodecClosed; Returned 2 RNil]
  /\ seen_link demo_lost = [Called 1 (CallAdd 7); Called 2 CallClose; Won 2; CodecClosed; Returned 2 RNil; Invoked; Returned 3 RNil; Added 1 7; Returned 1 RNil; Returned 0 RClosed].
Proof. repeat split. Qed.

(** Without new calls a session executes a bounded number of statements. *)
Theorem C188_bounded cap s : exists N, forall n s', busy cap s n s' -> (n <= N)%nat.
Proof. exact (bounded cap s). Qed.
Print Assumptions C188_bounded.
(** When nothing can go on, every call has returned: there is no deadlock. *)
Theorem C188_returned cap os s tr i c : lrun cap fresh_link os = Ok (s, tr) -> at_rest cap s -> In (Called i c) tr -> exists r, In (Returned i r) tr.
Proof. exact (rest_returned cap os s tr i c). Qed.
Print Assumptions C188_returned.
(** If nobody closed the session, every accepted message is written by then. *)
Theorem C188_open cap os s tr : lrun cap fresh_link os = Ok (s, tr) -> at_rest cap s -> (forall j, ~ In (Won j) tr) -> wrotes tr = puts tr.
Proof. exact (rest_open cap os s tr). Qed.
Print Assumptions C188_open.
(** If somebody did, the codec is closed by then, the send loop has ended, and all callbacks added before the invocation have been called. *)
Theorem C188_closed cap os s tr j : lrun cap fresh_link os = Ok (s, tr) -> at_rest cap s -> In (Won j) tr ->
  In CodecClosed tr /\ (exists r, In (Returned 0 r) tr) /\ exists a b, tr = a ++ Invoked :: b /\ rans tr = addeds a.
Proof. exact (rest_closed cap os s tr j). Qed.
Print Assumptions C188_closed.
(** At rest: a session that stays open, and one that was closed and lost a message. *)
Example C188_case :
  at_rest 2 (after_link demo_open) /\ wrotes (seen_link demo_open) = [11; 10] /\ (forall j, ~ In (Won j) (seen_link demo_open)) /\
  at_rest 2 (after_link demo_close) /\ puts (seen_link demo_close) = [10; 11] /\ wrotes (seen_link demo_close) = [10] /\
  ~ at_rest 2 (after_link demo_overlap).
Proof.
  split; [apply rest_if; repeat constructor|]. split; [reflexivity|]. split; [intros j H; vm_compute in H; intuition discriminate|].
  split; [apply rest_if; repeat constructor|]. split; [reflexivity|]. split; [reflexivity|].
  intro H. specialize (H 3%nat true _ _ eq_refl). discriminate.
Qed.

(** Seen from outside every call happens at one moment: what is observed can be rearranged, without changing the order of calls, returns and everything else that is not about the queue,
    nor the order of what happens to the queue, nor what any goroutine did, so that an open session accepts while there is room and refuses nothing, and a closed one accepts nothing. *)
Theorem C189_one_moment cap os s tr : lrun cap fresh_link os = Ok (s, tr) ->
  exists tr', conduct tr' = conduct tr /\ traffic tr' = traffic tr /\ (forall i, mine i tr' = mine i tr) /\ accepts cap true [] tr'.
Proof. exact (linear cap os s tr). Qed.
Print Assumptions C189_one_moment.
(** The message that was put after the closing began counts as put before; as it was observed it would not do. *)
Example C189_case :
  accepts 2 true [] [Called 1 (CallSend 10); Called 2 CallClose; Put 1 10; Won 2; Returned 1 RNil; CodecClosed; Returned 2 RNil] /\
  ~ accepts 2 true [] (seen_link demo_overlap).
Proof.
  split.
  - repeat first [apply acc_other; [exact I|]|apply acc_put; [cbn; lia|]|apply acc_close|apply acc_nil|apply acc_end].
  - change (seen_link demo_overlap) with [Called 1 (CallSend 10); Called 2 CallClose; Won 2; Put 1 10; Returned 1 RNil; CodecClosed; Returned 2 RNil].
    intro H. repeat match goal with H : accepts _ _ _ (_ :: _) |- _ => inversion H; clear H; subst; try contradiction end.
Qed.
