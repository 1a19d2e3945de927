(** One session of github.com/funny/link, statement by statement.

    The library is named in go.mod:6 and its source is not in /repo.  What is here follows session.go of the published
    library and could not be compared with it in the place where this was written; it is one of the things this
    development takes on trust.  go808 uses it at server.go:76 (link.NewServer with queues of 24 messages),
    session.go:80 (Send), session.go:116 (Close), and session_handler.go:30 and :38 (AddCloseCallback, Close).

    Any number of goroutines call Send, Close and AddCloseCallback of one session while its send loop runs.  Every
    statement that touches shared data is a step, in any interleaving.

    Simplifications: a mutex is held by the goroutines that are between its Lock and its Unlock, and who gets it next is
    open.  Receive is left out: all it does to the session is to call Close.  The removal of a session
    from the manager of link and ClearSendChan (which the codec of protocol.go does not have) are left out.  Callbacks and
    messages are numbers; what callbacks do (server.go:131-151) is left out, and if it calls the session that is another call. *)
From Verif Require Import Base.

(** What the functions return: nil, SessionClosedError or SessionBlockedError (session.go:80-83 of /repo tells only nil from the rest) *)
Inductive ret := RNil | RClosed | RBlocked.

(** Where a goroutine is: the statement it executes next.
    Send (called at session.go:80): sendMutex.RLock; IsClosed; select { case sendChan <- msg; default }; RUnlock, and Close after that if the queue was full.
    Close (called at session.go:116, session_handler.go:38): CompareAndSwap of closeFlag; close(closeChan); sendMutex.Lock; close(sendChan); Unlock; codec.Close; go invokeCloseCallbacks.
    invokeCloseCallbacks: closeMutex.Lock; the callbacks one after another; Unlock.
    AddCloseCallback (called at session_handler.go:30): IsClosed; closeMutex.Lock; append; Unlock.
    sendLoop: select { case msg, ok := <-sendChan; case <-closeChan }; codec.Send; and Close at its end. *)
Inductive pc :=
| SLock (m : Z) | SCheck (m : Z) | SSelect (m : Z) | SUnlock (r : ret)
| CSwap (r : option ret) | CChan (r : ret) | CLock (r : ret) | CQueue (r : ret) | CUnlock (r : ret) | CCodec (r : ret) | CSpawn (r : ret)
| KLock | KRun (rest : list Z) | KUnlock
| ACheck (f : Z) | ALock (f : Z) | AAdd (f : Z) | AUnlock
| LSelect | LSend (m : Z)
| Done (r : ret).

(** link.Session (the field session.go:25): closeFlag, whether closeChan is closed, whether sendChan is closed, what is in it, the list of callbacks, and
    the goroutines: 0 is the send loop, the others in the order in which they began *)
Record link := Link { lk_flag : bool; lk_chan : bool; lk_shut : bool; lk_queue : list Z; lk_cbs : list Z; lk_pcs : list pc }.

(** the calls go808 makes, see above: session.go:80, session.go:116, session_handler.go:30 *)
Inductive lcall := CallSend (m : Z) | CallClose | CallAdd (f : Z).
(** What can be observed: goroutine i called a function; put m into the queue; won the compare-and-swap; the loop took m; the codec accepted m;
    the codec was closed (protocol.go:52-57); f was appended to the callbacks; the invocation of callbacks began; f was called; goroutine i returned (nothing in /repo: a device of this model) *)
Inductive lev := Called (i : nat) (c : lcall) | Put (i : nat) (m : Z) | Won (i : nat) | Took (m : Z) | Wrote (m : Z)
| CodecClosed | Added (i : nat) (f : Z) | Invoked | Ran (f : Z) | Returned (i : nat) (r : ret).

(** the first statement of each *)
Definition begin (c : lcall) : pc :=
  match c with CallSend m => SLock m | CallClose => CSwap None | CallAdd f => ACheck f end.

(** between RLock and RUnlock of sendMutex (Send, called at session.go:80) *)
Definition holds_r (p : pc) : bool := match p with SCheck _ | SSelect _ | SUnlock _ => true | _ => false end.
(** between Lock and Unlock of sendMutex (Close, called at session.go:116) *)
Definition holds_w (p : pc) : bool := match p with CQueue _ | CUnlock _ => true | _ => false end.
(** between Lock and Unlock of closeMutex (AddCloseCallback, called at session_handler.go:30, and the invocation) *)
Definition holds_c (p : pc) : bool := match p with KRun _ | KUnlock | AAdd _ | AUnlock => true | _ => false end.

(** goroutine i goes on with another statement (no line of /repo) *)
Fixpoint goto (l : list pc) (i : nat) (p : pc) : list pc :=
  match l, i with
  | [], _ => []
  | _ :: t, O => p :: t
  | x :: t, S j => x :: goto t j p
  end.

(** One statement of goroutine i.  [b] decides what the program leaves open: which case of the select of the send loop is tried, and whether
    codec.Send (protocol.go:60-98) succeeds.  Sending on a closed channel and closing a closed channel panic. *)
Definition lmove (cap : nat) (s : link) (i : nat) (b : bool) : res (link * list lev) :=
  let 'Link fl ch sh q cbs ps := s in
  let go p := Link fl ch sh q cbs (goto ps i p) in
  let stay := Ok (s, []) in
  match nth_error ps i with
  | None | Some (Done _) => stay
  | Some (SLock m) => if existsb holds_w ps then stay else Ok (go (SCheck m), [])
  | Some (SCheck m) => if fl then Ok (go (SUnlock RClosed), []) else Ok (go (SSelect m), [])
  | Some (SSelect m) =>
    if sh then Panic
    else if (length q <? cap)%nat then Ok (Link fl ch sh (q ++ [m]) cbs (goto ps i (SUnlock RNil)), [Put i m])
    else Ok (go (SUnlock RBlocked), [])
  | Some (SUnlock RBlocked) => Ok (go (CSwap (Some RBlocked)), [])
  | Some (SUnlock r) => Ok (go (Done r), [Returned i r])
  | Some (CSwap k) =>
    if fl then let r := match k with Some r => r | None => RClosed end in Ok (go (Done r), [Returned i r])
    else Ok (Link true ch sh q cbs (goto ps i (CChan (match k with Some r => r | None => RNil end))), [Won i])
  | Some (CChan r) => if ch then Panic else Ok (Link fl true sh q cbs (goto ps i (CLock r)), [])
  | Some (CLock r) => if existsb holds_r ps || existsb holds_w ps then stay else Ok (go (CQueue r), [])
  | Some (CQueue r) => if sh then Panic else Ok (Link fl ch true q cbs (goto ps i (CUnlock r)), [])
  | Some (CUnlock r) => Ok (go (CCodec r), [])
  | Some (CCodec r) => Ok (go (CSpawn r), [CodecClosed])
  | Some (CSpawn r) => Ok (Link fl ch sh q cbs (goto ps i (Done r) ++ [KLock]), [Returned i r])
  | Some KLock => if existsb holds_c ps then stay else Ok (go (KRun cbs), [Invoked])
  | Some (KRun []) => Ok (go KUnlock, [])
  | Some (KRun (f :: t)) => Ok (go (KRun t), [Ran f])
  | Some KUnlock => Ok (go (Done RNil), [Returned i RNil])
  | Some (ACheck f) => if fl then Ok (go (Done RNil), [Returned i RNil]) else Ok (go (ALock f), [])
  | Some (ALock f) => if existsb holds_c ps then stay else Ok (go (AAdd f), [])
  | Some (AAdd f) => Ok (Link fl ch sh q (cbs ++ [f]) (goto ps i AUnlock), [Added i f])
  | Some AUnlock => Ok (go (Done RNil), [Returned i RNil])
  | Some LSelect =>
    if b then
      match q with
      | m :: t => Ok (Link fl ch sh t cbs (goto ps i (LSend m)), [Took m])
      | [] => if sh then Ok (go (CSwap None), []) else stay
      end
    else if ch then Ok (go (CSwap None), []) else stay
  | Some (LSend m) => if b then Ok (go LSelect, [Wrote m]) else Ok (go (CSwap None), [])
  end.

(** A step of the process: another goroutine calls a function of the session, or one of those there goes on (session.go:80 and :116, session_handler.go:30 and :38) *)
Inductive lop := Call (c : lcall) | Move (i : nat) (b : bool).
(** see above *)
Definition lstep (cap : nat) (s : link) (o : lop) : res (link * list lev) :=
  match o with
  | Call c => Ok (Link (lk_flag s) (lk_chan s) (lk_shut s) (lk_queue s) (lk_cbs s) (lk_pcs s ++ [begin c]), [Called (length (lk_pcs s)) c])
  | Move i b => lmove cap s i b
  end.
(** all steps of a history, with what is observed *)
Fixpoint lrun (cap : nat) (s : link) (os : list lop) : res (link * list lev) :=
  match os with
  | [] => Ok (s, [])
  | o :: t =>
    do (s', e) <- lstep cap s o; do (s2, e2) <- lrun cap s' t; Ok (s2, e ++ e2)
  end.
(** a new session: the send loop is its only goroutine (link.NewServer, server.go:76, makes them) *)
Definition fresh_link : link := Link false false false [] [] [LSelect].
